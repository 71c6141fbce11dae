(** C78, continued: the ellipsis, and rounding to decimals. *)
From Verif Require Import PyBase PyLemmas ContainerModel Nd IndexModel IndexSpec IndexProofs IndexProofs2 MeasuredModel MeasuredSpec MeasuredProofs MeasuredProofs2.
From Coq Require Import Lia.

Section Properties.
Context {U : Type}.
Variable uone : U.
Notation obj := (@mobj U).
Notation getitem := (getitem uone).

Lemma ell_here pre post : existsb is_ell (pre ++ SEll :: post) = true.
Proof using. rewrite existsb_app. cbn [existsb is_ell]. rewrite Bool.orb_true_l, Bool.orb_true_r. reflexivity. Qed.
Lemma ellipsis_form n pre post : no_ell pre -> no_ell post -> length pre + length post <= n ->
  numpy_ellipsis n (pre ++ SEll :: post) = Ok (pre ++ repeat (SSlice full_slice) (n - (length pre + length post)) ++ post).
Proof using.
  intros A B L. unfold numpy_ellipsis.
  assert (C : count_ell (pre ++ SEll :: post) = 1).
  { unfold count_ell. rewrite filter_app. cbn [filter is_ell]. rewrite (no_ell_filter pre A), (no_ell_filter post B). reflexivity. }
  rewrite C. change (Nat.ltb 1 1) with false. cbn [orb]. assert (D : Nat.ltb (n + 1) (length (pre ++ SEll :: post)) = false) by (apply Nat.ltb_ge; rewrite app_length; cbn [length]; lia). rewrite D.
  rewrite ell_pos_app by exact A. rewrite firstn_app, Nat.sub_diag, firstn_all. cbn [firstn]. rewrite app_nil_r.
  rewrite skipn_app. replace (length pre + 1 - length pre) with 1 by lia. rewrite skipn_all2 by lia. cbn [skipn app].
  rewrite app_length. cbn [length]. replace (n + 1 - (length pre + S (length post))) with (n - (length pre + length post)) by lia. reflexivity.
Qed.
(** One ellipsis stands for full slices of the axes that are not subscripted, if an axis remains. *)
Theorem C78_ellipsis (o : obj) pre post sh : proper o -> In (knd o) [MSequence; MMeasurement; MVector; MTensor] -> no_ell pre -> no_ell post ->
  let rest := repeat (SSlice full_slice) (length (shape_of o) - (length pre + length post)) in
  length pre + length post <= length (shape_of o) -> leaves (pre ++ rest ++ post) (shape_of o) sh -> sh <> [] ->
  getitem o (pre ++ SEll :: post) = getitem o (pre ++ rest ++ post).
Proof using.
  intros P K A B rest L Lv N. subst rest.
  assert (D : exists a, dat o = DArr a). { destruct P as (_ & _ & P). apply P. destruct K as [<-|[<-|[<-|[<-|[]]]]]; reflexivity. }
  destruct D as (a & D). assert (Sh : shape_of o = shape a) by (unfold shape_of; rewrite D; reflexivity). rewrite Sh in *.
  assert (E : subscript (dat o) (pre ++ SEll :: post) = subscript (dat o) (pre ++ repeat (SSlice full_slice) (length (shape a) - (length pre + length post)) ++ post)).
  { rewrite D. unfold subscript. rewrite ell_here. rewrite (leaves_no_ell _ _ _ Lv). unfold ndim. rewrite ellipsis_form by assumption. cbn [bind].
    destruct (numpy_basic a _ sh Lv) as (b & G & S & _). rewrite G. cbn [bind]. rewrite S. destruct sh; [contradiction N; reflexivity|reflexivity]. }
  unfold MeasuredModel.getitem. destruct K as [<-|[<-|[<-|[<-|[]]]]]; rewrite E; reflexivity.
Qed.
(** Several ellipses, or more subscripts than axes beside one, are refused. *)
Theorem C78_ellipsis_fails (o : obj) l : proper o -> In (knd o) [MSequence; MMeasurement; MVector; MTensor] ->
  In SEll l -> (exists l1 l2 l3, l = l1 ++ SEll :: l2 ++ SEll :: l3) \/ length l > length (shape_of o) + 1 -> getitem o l = Raise IndexError.
Proof using.
  intros P K I Bad.
  assert (D : exists a, dat o = DArr a). { destruct P as (_ & _ & P). apply P. destruct K as [<-|[<-|[<-|[<-|[]]]]]; reflexivity. }
  destruct D as (a & D). assert (Sh : shape_of o = shape a) by (unfold shape_of; rewrite D; reflexivity). rewrite Sh in *.
  assert (E : subscript (dat o) l = Raise IndexError).
  { rewrite D. unfold subscript. assert (X : existsb is_ell l = true) by (apply existsb_exists; exists SEll; split; [exact I|reflexivity]). rewrite X. unfold numpy_ellipsis.
    assert (Y : Nat.ltb 1 (count_ell l) || Nat.ltb (ndim a + 1) (length l) = true); [|rewrite Y; reflexivity].
    apply Bool.orb_true_iff. destruct Bad as [(l1 & l2 & l3 & ->)|G]; [left|right; apply Nat.ltb_lt; unfold ndim; lia].
    apply Nat.ltb_lt. unfold count_ell. rewrite filter_app, app_length. cbn [filter is_ell length]. rewrite filter_app, app_length. cbn [filter is_ell length]. lia. }
  unfold MeasuredModel.getitem. destruct K as [<-|[<-|[<-|[<-|[]]]]]; rewrite E; reflexivity.
Qed.
(** round(x, n) raises for every class but Variable, whose rounding is not modelled. *)
Theorem C78_round_digits_refuted (o : obj) n : knd o <> MVariable -> mround_digits o n = Raise TypeError.
Proof using. intros N. unfold mround_digits. destruct (knd o); try reflexivity. contradiction N; reflexivity. Qed.
End Properties.
Print Assumptions C78_ellipsis.
Print Assumptions C78_ellipsis_fails.
Print Assumptions C78_round_digits_refuted.
(** x[0, ..., 1] of a tensor with three axes *)
Example C78_ellipsis_case : let o := mkm MTensor (DArr (mknd [2; 3; 2] (fun ix => zq (Z.of_nat (nth 1 ix 0))))) tt in
  proper o /\ leaves ([SInt 0] ++ repeat (SSlice full_slice) (length (shape_of o) - 2) ++ [SInt 1]) (shape_of o) [3] /\
  exists y, getitem tt o [SInt 0; SEll; SInt 1] = Ok y /\ values y = [zq 0; zq 1; zq 2].
Proof.
  cbv zeta. split; [split; [discriminate|split; [discriminate|intros _; eexists; reflexivity]]|].
  assert (Lv : leaves ([SInt 0] ++ repeat (SSlice full_slice) 1 ++ [SInt 1]) [2; 3; 2] [3]).
  { assert (I0 : selects_axis (SInt 0) 2 [0]) by (apply (sel_int 0 2); lia). assert (I1 : selects_axis (SInt 1) 2 [1]) by (apply (sel_int 1 2); lia).
    cbn [repeat app]. apply leaves_int with (j := 0); [exact I0|].
    apply leaves_slice with (p := [0; 1; 2]); [constructor; apply slice_positions_selects; vm_compute; reflexivity|]. apply leaves_int with (j := 1); [exact I1|constructor]. }
  split; [exact Lv|]. eexists. split; [reflexivity|vm_compute; reflexivity].
Qed.
