(** * Model of the integral flux.
    Source: /repo/src/eprempy/observable/_interfaces.py 757-877, 1749-1770.

    Energies and bounds are exact rationals, fluxes are numbers of NumModel.
    [integrate.simpson] is any function of the values and the nodes.  One spectrum
    is a list of fluxes, one for each energy: the code treats every time, shell
    and species alike. *)
From Coq Require Import Reals Qreals.
From Verif Require Import PyBase ContainerModel IndexModel AxisModel NumModel.

Definition fin (q : Qc) : num := Fin (Q2R (this q)).
(** [array[i0:]] and [array[i0] = v] *)
Definition from_index {A} (l : list A) (i : Z) : list A := skipn (Z.to_nat (if (i <? 0)%Z then Z.max 0 (i + Z.of_nat (length l)) else i)) l.
Definition put_at {A} (l : list A) (i : Z) (v : A) : result (list A) :=
  let j := if (i <? 0)%Z then (i + Z.of_nat (length l))%Z else i in
  if (j <? 0)%Z || (Z.of_nat (length l) <=? j)%Z then Raise IndexError
  else Ok (firstn (Z.to_nat j) l ++ v :: skipn (S (Z.to_nat j)) l).

(** 834-877 [_check_interp] for one spectrum *)
Definition check_interp (y : list num) (x : list Qc) (p : Qc) : result (list num * list Qc) :=
  match x with
  | [] => Raise ValueError                                     (* xarr.min() *)
  | d :: l =>
      if qc_ltb p (minq l d) then Ok (y, x)
      else if negb (Nat.eqb (length x) (length y)) then Raise ValueError
      else
        ix <- nearest x p Upper ;;
        let '(i0, x0) := ix in
        x1 <- match pyindex x (i0 + 1) with Raise IndexError => Raise ValueError | r => r end ;;
        let lnxc := nlog (ndiv (fin x1) (fin x0)) in
        y1 <- pyindex y (i0 + 1) ;;
        y0 <- pyindex y i0 ;;
        let lnfc := nlog (ndiv y1 y0) in
        let beta := ndiv lnfc lnxc in
        let base := ndiv (fin p) (fin x0) in
        xarr <- put_at x i0 p ;;
        yarr <- put_at y i0 (nmul y0 (npower base beta)) ;;
        Ok (from_index yarr i0, from_index xarr i0)
  end.

(** sys.float_info.min *)
Definition float_min : Qc := Q2Qc (1 # (Pos.pow 2 1022)).
(** 802-820 [_integrate_flux] for given bounds, in the unit of the energies *)
Definition integrate_flux (simpson : list num -> list Qc -> num) (flux : list (list num)) (energy : list Qc) (bounds : list Qc) : result (list (list num)) :=
  mapM (fun y => mapM (fun bound =>
    let m := if qc_ltb bound float_min then float_min else bound in
    r <- check_interp y energy m ;; Ok (simpson (fst r) (snd r))) bounds) flux.

(** [x - x[shifted by one]]: the differences from one coordinate to the next, 0
    for the first (766-776, 823-831, with IndexModel.sequence_shift) *)
Definition differences (x : list Qc) : result (list Qc) :=
  let ix := map Z.of_nat (seq 0 (length x)) in
  x0 <- mapM (pyindex x) ix ;;
  xm <- mapM (pyindex x) (sequence_shift ix (-1) (Some 0%Z) None) ;;
  Ok (map (fun ab => fst ab - snd ab)%Qc (combine x0 xm)).
(** numpy.cumsum *)
Definition cumsum (l : list Qc) : list Qc := map (fun n => fold_right Qcplus 0%Qc (firstn (S n) l)) (seq 0 (length l)).
(** 822-832 [_integrate_flux_slice] with a full slice: no minimum energy was given *)
Definition integrate_flux_slice (flux : list Qc) (energy : list Qc) : result (list Qc) :=
  de <- differences energy ;;
  Ok (cumsum (map (fun ab => fst ab * snd ab)%Qc (combine flux de))).
(** 757-780 [fluence]: the same over time *)
Definition fluence (flux : list Qc) (times : list Qc) : result (list Qc) :=
  dt <- differences times ;;
  Ok (cumsum (map (fun ab => fst ab * snd ab)%Qc (combine flux dt))).
