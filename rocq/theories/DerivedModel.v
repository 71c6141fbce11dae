(** * Model of the derived observables, entry by entry.
    Source: /repo/src/eprempy/observable/_interfaces.py 291-755.

    The code computes whole arrays with elementwise operations on arrays of the
    same dimensions; each definition is one entry of the result as a function of
    the corresponding entries.  Units are those of the metric system in use, so
    that the conversions at the end of the methods leave the values as they are
    (C44, C20 and C22 treat units). *)
From Coq Require Import Reals.
From Verif Require Import PyBase NumModel.

(** 295-334 [x], [y], [z] *)
Definition obs_x (r theta phi : num) : num := nmul (nmul r (nsin theta)) (ncos phi).
Definition obs_y (r theta phi : num) : num := nmul (nmul r (nsin theta)) (nsin phi).
Definition obs_z (r theta : num) : num := nmul r (ncos theta).
(** 336-362 [bmag], [umag] *)
Record vec := { vr : num; vtheta : num; vphi : num }.
Definition magnitude (v : vec) : num := nsqrt (nadd (nadd (npow (vr v) 2) (npow (vtheta v) 2)) (npow (vphi v) 2)).
(** 425-440 [udotb]; 364-375 [ubmag]; 412-423 [upara]; 398-410 [uperp] *)
Definition udotb (u b : vec) : num := nadd (nadd (nmul (vr b) (vr u)) (nmul (vtheta b) (vtheta u))) (nmul (vphi b) (vphi u)).
Definition ubmag (u b : vec) : num := nmul (magnitude b) (magnitude u).
Definition upara (u b : vec) : num := ndiv (udotb u b) (magnitude b).
Definition uperp (u b : vec) : num := nsqrt (nsub (npow (magnitude u) 2) (npow (upara u b) 2)).
(** 377-396 [angle] *)
Definition clamped_arccos (ratio : num) : num :=
  let arg := if nlt ratio (Fin (-1)) then Fin (-1) else ratio in
  let arg := if nlt (Fin 1) arg then Fin 1 else arg in
  narccos arg.
Definition angle (u b : vec) : num := clamped_arccos (ndiv (udotb u b) (ubmag u b)).
(** 491-517 [_compute_rigidity] *)
Definition momentum (c mass energy : num) : num :=
  let t := nadd (ndiv energy mass) (npow c 2) in
  nmul (nsqrt (nsub (npow t 2) (npow c 4))) (ndiv mass c).
Definition rigidity (c mass charge energy : num) : num := ndiv (momentum c mass energy) charge.
(** 519-547 [mfp]; [e0] is one MeV *)
Definition mfp (c mass charge energy e0 r r0 lambda0 rpower rgpower : num) : num :=
  let rterm := npower (ndiv r r0) rpower in
  let rgterm := npower (ndiv (rigidity c mass charge energy) (rigidity c mass charge e0)) rgpower in
  nmul (nmul lambda0 rterm) rgterm.
(** 611-624 [_kxx_ux] *)
Definition kxx_ux (mfp theta kper_kpar v ux : num) : num :=
  let kxx_kpar := nadd (npow (ncos theta) 2) (nmul kper_kpar (npow (nsin theta) 2)) in
  ndiv (ndiv (nmul (nmul mfp kxx_kpar) v) (Fin 3)) ux.
(** 567-609 [_compute_ar]: the velocities at the next (1) and the previous (2) shell *)
Definition accel (u1 u2 : vec) (kxx1_ux1 kxx2_ux2 : num) : num :=
  let ux1 := magnitude u1 in
  let u1dotu2 := nadd (nadd (nmul (vr u1) (vr u2)) (nmul (vtheta u1) (vtheta u2))) (nmul (vphi u1) (vphi u2)) in
  let delta_u := nmul ux1 (nabs (nsub (Fin 1) (ndiv u1dotu2 (nmul ux1 ux1)))) in
  ndiv delta_u (nadd kxx1_ux1 kxx2_ux2).
(** 695-727 [flux] from the distribution (g is one steradian); 729-749 [_fiso] from
    the flux; 750-755 from the distribution over pitch angles: the mean *)
Definition flux_of (fiso e m : num) : num := ndiv (nmul (nmul (Fin 2) fiso) e) (nmul (Fin 1) (npow m 2)).
Definition fiso_of_flux (flux e m : num) : num := ndiv (nmul (nmul (Fin (1/2)) flux) (npow m 2)) e.
Definition nmean (l : list num) : num := ndiv (nsum l) (Fin (INR (length l))).
Definition fiso_of_f (f : list num) : num := nmean f.
(** numpy.gradient of a list with unit spacing, and over given coordinates:
    one-sided at the ends, second order inside.  numpy refuses arrays of length 1
    (ValueError), which is not modelled. *)
Definition gradient1 (y : list R) : list R :=
  let n := length y in
  let y_ := fun k => nth k y 0%R in
  map (fun i => if Nat.eqb i 0 then (y_ 1%nat - y_ 0%nat)%R
                else if Nat.eqb i (n - 1) then (y_ i - y_ (i - 1)%nat)%R
                else ((y_ (i + 1)%nat - y_ (i - 1)%nat) / 2)%R) (seq 0 n).
Definition gradient (y x : list R) : list R :=
  let n := length y in
  let y_ := fun k => nth k y 0%R in
  let x_ := fun k => nth k x 0%R in
  map (fun i =>
    if Nat.eqb i 0 then ((y_ 1%nat - y_ 0%nat) / (x_ 1%nat - x_ 0%nat))%R
    else if Nat.eqb i (n - 1) then ((y_ i - y_ (i - 1)%nat) / (x_ i - x_ (i - 1)%nat))%R
    else let hs := (x_ i - x_ (i - 1)%nat)%R in
         let hd := (x_ (i + 1)%nat - x_ i)%R in
         ((hs ^ 2 * y_ (i + 1)%nat + (hd ^ 2 - hs ^ 2) * y_ i - hd ^ 2 * y_ (i - 1)%nat) / (hs * hd * (hd + hs)))%R) (seq 0 n).
(** 442-469 [divu] of one shell *)
Definition divu (rho times : list R) : list num :=
  map (fun gr => ndiv (nmul (Fin (-1)) (Fin (fst gr))) (Fin (snd gr))) (combine (gradient rho times) rho).
(** 662-693 [energy_density], 626-660 [average_energy], for one time, shell and
    species: v and fiso by energy *)
Definition moment (k : nat) (v fiso : list R) : num :=
  nsum (map (fun x => nmul (nmul (npow (Fin (fst (fst x))) k) (Fin (snd (fst x)))) (Fin (snd x))) (combine (combine v fiso) (gradient1 v))).
Definition energy_density (m : num) (v fiso : list R) : num := nmul m (moment 4 v fiso).
Definition average_energy (m : num) (v fiso : list R) : num := ndiv (nmul (Fin (1/2)) (energy_density m v fiso)) (moment 2 v fiso).
