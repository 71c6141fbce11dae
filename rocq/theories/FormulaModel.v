(** Model of the observables that are formulas over stored arrays.
    Source: /repo/src/eprempy/observable/_interfaces.py 295-334 (Functions.x to
    Functions.z), 336-375 (bmag, umag, ubmag), 398-440 (uperp, upara, udotb),
    1454-1589 (Quantities.x to Quantities.uperp).

    [stored]: the quantities read from the file (1252-1420), whose operators are
    the methods of Functions (130-250) at the time, the shell and the assumptions
    of the user.  Numbers are exact rationals: [pw], [f_root], [f_sine] and [f_cosine]
    stand for numpy's power, square root, sine and cosine.  Derived observables
    as numbers are in DerivedModel; the array of angles is in AngleModel. *)
From Verif Require Import PyBase ContainerModel Nd IndexModel ArrayModel AxesModel AxisModel PhysicalModel AtomicModel PhysFuncModel ObservableModel AngleModel.

(** numpy's square root, sine, cosine and inverse cosine: one argument of all
    formulas, so that none can take one function for the other *)
Record functions := mkfunctions { f_root : Qc -> Qc; f_sine : Qc -> Qc; f_cosine : Qc -> Qc; f_arc : Qc -> Qc }.

Section Formula.
Context {U B : Type}.
Variables (ueq : U -> U -> bool) (umul udiv : U -> U -> result U) (upow : U -> Qc -> result U) (uone : U) (uinv : U -> result U) (ustr : U -> str).
Variables (beq : B -> B -> bool) (blen : B -> nat) (bin : B -> B -> bool).
Variable pw : Qc -> Qc -> Qc.
Variable fns : functions.
Notation val := (pval (U := U) (B := B)).
Notation qty := (quantity (U := U) (B := B)).
Notation args := (arguments (U := U)).

(** *, /, +, -, **2, numpy.sqrt, numpy.sin and numpy.cos of physical arrays *)
Definition times : val -> val -> result val := pmultiplicative umul udiv uinv OMul Qcmult.
Definition over : val -> val -> result val := pmultiplicative umul udiv uinv ODiv Qcdiv.
Definition plus : val -> val -> result val := padditive ueq uone beq blen bin Qcplus.
Definition minus : val -> val -> result val := padditive ueq uone beq blen bin Qcminus.
Definition square (x : val) : result val := pexponential ueq upow uone pw x (PNum (zq 2)).
Definition npsqrt : val -> result val := apply_sqrt upow (f_root fns).
Definition npsin : val -> result val := apply_trig uone ustr (f_sine fns).
Definition npcos : val -> result val := apply_trig uone ustr (f_cosine fns).

(** 1252-1420: the stored quantities *)
Record stored := mkstored { q_r : qty; q_theta : qty; q_phi : qty; q_br : qty; q_btheta : qty; q_bphi : qty; q_ur : qty; q_utheta : qty; q_uphi : qty }.
Variable st : stored.

(** 295-307 *)
Definition fx (user : args) : result val :=
  r <- operator (q_r st) user ;;
  theta <- operator (q_theta st) user ;;
  phi <- operator (q_phi st) user ;;
  a <- npsin theta ;;
  b <- times r a ;;
  c <- npcos phi ;;
  times b c.
(** 309-321 *)
Definition fy (user : args) : result val :=
  r <- operator (q_r st) user ;;
  theta <- operator (q_theta st) user ;;
  phi <- operator (q_phi st) user ;;
  a <- npsin theta ;;
  b <- times r a ;;
  c <- npsin phi ;;
  times b c.
(** 323-334 *)
Definition fz (user : args) : result val :=
  r <- operator (q_r st) user ;;
  theta <- operator (q_theta st) user ;;
  a <- npcos theta ;;
  times r a.
(** [x**2 + y**2 + z**2] *)
Definition sum_of_squares (x y z : val) : result val :=
  a <- square x ;;
  b <- square y ;;
  d <- plus a b ;;
  c <- square z ;;
  plus d c.
(** 336-348 *)
Definition fbmag (user : args) : result val :=
  br <- operator (q_br st) user ;;
  btheta <- operator (q_btheta st) user ;;
  bphi <- operator (q_bphi st) user ;;
  x <- sum_of_squares br btheta bphi ;;
  npsqrt x.
(** 350-362 *)
Definition fumag (user : args) : result val :=
  ur <- operator (q_ur st) user ;;
  utheta <- operator (q_utheta st) user ;;
  uphi <- operator (q_uphi st) user ;;
  x <- sum_of_squares ur utheta uphi ;;
  npsqrt x.
(** 364-375 *)
Definition fubmag (user : args) : result val :=
  bmag <- fbmag user ;;
  umag <- fumag user ;;
  times bmag umag.
(** 425-440 *)
Definition fudotb (user : args) : result val :=
  br <- operator (q_br st) user ;;
  ur <- operator (q_ur st) user ;;
  btheta <- operator (q_btheta st) user ;;
  utheta <- operator (q_utheta st) user ;;
  bphi <- operator (q_bphi st) user ;;
  uphi <- operator (q_uphi st) user ;;
  a <- times br ur ;;
  b <- times btheta utheta ;;
  d <- plus a b ;;
  c <- times bphi uphi ;;
  plus d c.
(** 412-423 *)
Definition fupara (user : args) : result val :=
  udotb <- fudotb user ;;
  bmag <- fbmag user ;;
  over udotb bmag.
(** 398-410 *)
Definition fuperp (user : args) : result val :=
  umag <- fumag user ;;
  upara <- fupara user ;;
  a <- square umag ;;
  b <- square upara ;;
  x <- minus a b ;;
  npsqrt x.
(** 377-396, with the whole array [ur] of the dataset *)
Definition fangle (rad : U) (ur : parr (U := U) (B := B)) : args -> result val := angle_operator umul udiv uinv (f_arc fns) rad ur fudotb fubmag.

(** 1454-1589: each quantity has the unit and the dimensions of a stored one *)
Definition x_quantity : qty := mkqty fx (qunit (q_r st)) (qdims (q_r st)).
Definition y_quantity : qty := mkqty fy (qunit (q_r st)) (qdims (q_r st)).
Definition z_quantity : qty := mkqty fz (qunit (q_r st)) (qdims (q_r st)).
Definition bmag_quantity : qty := mkqty fbmag (qunit (q_br st)) (qdims (q_br st)).
Definition umag_quantity : qty := mkqty fumag (qunit (q_ur st)) (qdims (q_ur st)).
Definition upara_quantity : qty := mkqty fupara (qunit (q_ur st)) (qdims (q_ur st)).
Definition uperp_quantity : qty := mkqty fuperp (qunit (q_ur st)) (qdims (q_ur st)).
End Formula.
