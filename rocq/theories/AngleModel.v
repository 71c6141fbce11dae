(** Model of the observable angle between velocity and magnetic field as an array.
    Source: /repo/src/eprempy/observable/_interfaces.py 377-396 [Functions.angle],
    1540-1554 [Quantities.angle].  DerivedModel treats its entries over the real
    numbers; here the numbers are exact rationals, [arc] stands for the inverse
    cosine, and there is no division by zero. *)
From Verif Require Import PyBase ContainerModel Nd IndexModel ArrayModel AxesModel AxisModel PhysicalModel AtomicModel ObservableModel.

Section Angle.
Context {U B : Type}.
Variables (umul udiv : U -> U -> result U) (uinv : U -> result U).
Variable arc : Qc -> Qc.
Variable rad : U.
Notation val := (pval (U := U) (B := B)).
(** 386-389: entries below -1 or above 1 are replaced *)
Definition clamp (v : Qc) : Qc := let v := if qc_ltb v (- (1)) then (- (1))%Qc else v in if qc_ltb 1 v then 1%Qc else v.
(** 377-396; [ur] is the stored array [self.dataset.ur]; the operands are arrays
    in all uses *)
Definition angle_operator (ur : parr (U := U) (B := B)) (udotb ubmag : arguments (U := U) -> result val) (user : arguments) : result val :=
  x <- udotb user ;;
  y <- ubmag user ;;
  ratio <- pmultiplicative umul udiv uinv ODiv Qcdiv x y ;;
  match ratio with
  | PArr r =>
      d <- adata r ;;
      a <- parray_factory (nd_map (fun v => arc (clamp v)) (data d)) rad (paxes ur) ;;
      Ok (PArr a)
  | _ => Raise AttributeError
  end.
(** 1540-1554; [unit] is [self.system['plane angle'].unit] *)
Definition angle_quantity (ur : parr) (udotb ubmag : arguments -> result val) (unit : U) (dims : list str) : quantity (U := U) (B := B) :=
  mkqty (angle_operator ur udotb ubmag) unit dims.
End Angle.
