From Verif Require Import PyBase PyLemmas ContainerModel ContainerSpec ContainerProofs ContainerProofs2 Nd IndexModel IndexSpec SymbolicTotal.
From Coq Require Import Sorted.
#[local] Open Scope nat_scope.

(** ** Shifts *)
Ltac zcases := repeat match goal with
  | |- context [Z.ltb ?a ?b] => destruct (Z.ltb_spec a b)
  | H : context [Z.ltb ?a ?b] |- _ => destruct (Z.ltb_spec a b)
  end.

Lemma value_shift_closest i x lo hi : bounds_ordered lo hi -> closest_in lo hi (i + x) (value_shift i x lo hi).
Proof.
  unfold bounds_ordered, closest_in, in_bounds, value_shift.
  destruct lo as [f|], hi as [c|]; intros H; zcases; (split; [lia|intros r' Hr; lia]).
Qed.
Lemma sequence_shift_nth l x lo hi : bounds_ordered lo hi ->
  sequence_shift l x lo hi = map (fun i => value_shift i x lo hi) l.
Proof.
  unfold sequence_shift, value_shift, bounds_ordered. intros B.
  destruct lo as [f|], hi as [c|]; rewrite ?map_map; apply map_ext; intros i; zcases; lia.
Qed.

(** ** Arithmetic *)
Lemma mapM_ok_nth {A B} (f : A -> result B) l r : mapM f l = Ok r ->
  length r = length l /\ forall k x, nth_error l k = Some x -> exists y, f x = Ok y /\ nth_error r k = Some y.
Proof.
  revert r. induction l as [|a l IH]; intros r H; simpl in H.
  - injection H as <-. split; [reflexivity|]. intros [|k] x E; discriminate.
  - apply bind_ok_inv in H as (y & Hy & H). apply bind_ok_inv in H as (ys & Hys & H). injection H as <-.
    destruct (IH _ Hys) as (L & N). split; [simpl; lia|]. intros [|k] x E; simpl in *.
    + injection E as <-. eauto.
    + apply N, E.
Qed.
Lemma zipM_ok_nth {R} (f : Z -> Z -> result R) a : forall b r, zipM f a b = Ok r ->
  length r = Nat.min (length a) (length b) /\
  forall k x y, nth_error a k = Some x -> nth_error b k = Some y -> exists z, f x y = Ok z /\ nth_error r k = Some z.
Proof.
  induction a as [|u a IH]; intros b r H; simpl in H.
  - injection H as <-. split; [reflexivity|]. intros [|k] x y E; discriminate.
  - destruct b as [|v b]; [injection H as <-; split; [reflexivity|intros [|k] x y _ E; discriminate]|].
    apply bind_ok_inv in H as (z & Hz & H). apply bind_ok_inv in H as (zs & Hzs & H). injection H as <-.
    destruct (IH _ _ Hzs) as (L & N). split; [simpl; lia|]. intros [|k] x y E1 E2; simpl in *.
    + injection E1 as <-. injection E2 as <-. eauto.
    + eapply N; eauto.
Qed.
Lemma mapM_total {A B} (f : A -> result B) l : (forall x, In x l -> exists y, f x = Ok y) -> exists r, mapM f l = Ok r.
Proof.
  induction l as [|a l IH]; intros H; [eexists; reflexivity|].
  destruct (H a (or_introl eq_refl)) as (y & Hy). destruct IH as (r & Hr); [intros; apply H; simpl; auto|].
  exists (y :: r). simpl. rewrite Hy. simpl. rewrite Hr. reflexivity.
Qed.
Lemma zipM_total {R} (f : Z -> Z -> result R) a : forall b, (forall x y, In y b -> exists z, f x y = Ok z) -> exists r, zipM f a b = Ok r.
Proof.
  induction a as [|u a IH]; intros b H; [eexists; reflexivity|]. destruct b as [|v b]; [eexists; reflexivity|].
  destruct (H u v (or_introl eq_refl)) as (z & Hz). destruct (IH b) as (r & Hr); [intros; apply H; simpl; auto|].
  exists (z :: r). simpl. rewrite Hz. simpl. rewrite Hr. reflexivity.
Qed.

Definition agrees (fr : Z -> Z -> result Z) (f : Z -> Z -> Z) : Prop := forall x y z, fr x y = Ok z -> z = f x y.
Lemma arithmetic_entrywise fr f a b r : agrees fr f -> arithmetic fr a b = Ok r -> entrywise f a b r.
Proof.
  intros G H. unfold arithmetic in H. apply bind_ok_inv in H as (w & Hw & H).
  destruct a as [x|l|x|], b as [y|m|y|]; simpl in Hw; try discriminate;
    apply bind_ok_inv in Hw as (v & Hv & Hw); injection Hw as <-; injection H as <-;
    (split; [|split]); simpl; try solve [intros []]; try solve [intros _ []].
  all: try solve [intros _ _; eexists; reflexivity].
  all: try solve [intros n (l0 & [E|E]); discriminate].
  all: try solve [intros k x0 y0 E1 E2; injection E1 as <-; injection E2 as <-; rewrite (G _ _ _ Hv); reflexivity].
  - destruct (mapM_ok_nth _ _ _ Hv) as (L & N). intros n _ _ E. eexists; split; [reflexivity|lia].
  - destruct (mapM_ok_nth _ _ _ Hv) as (L & N). intros k x0 y0 E1 E2. injection E1 as <-. destruct (N _ _ E2) as (z & Hz & ->). rewrite (G _ _ _ Hz). reflexivity.
  - destruct (mapM_ok_nth _ _ _ Hv) as (L & N). intros n _ E _. eexists; split; [reflexivity|lia].
  - destruct (mapM_ok_nth _ _ _ Hv) as (L & N). intros k x0 y0 E1 E2. injection E2 as <-. destruct (N _ _ E1) as (z & Hz & ->). rewrite (G _ _ _ Hz). reflexivity.
  - destruct (zipM_ok_nth _ _ _ _ Hv) as (L & N). intros n _ E1 E2. eexists; split; [reflexivity|lia].
  - destruct (zipM_ok_nth _ _ _ _ Hv) as (L & N). intros k x0 y0 E1 E2. destruct (N _ _ _ E1 E2) as (z & Hz & ->). rewrite (G _ _ _ Hz). reflexivity.
  - destruct (mapM_ok_nth _ _ _ Hv) as (L & N). intros n _ E _. eexists; split; [reflexivity|lia].
  - destruct (mapM_ok_nth _ _ _ Hv) as (L & N). intros k x0 y0 E1 E2. injection E2 as <-. destruct (N _ _ E1) as (z & Hz & ->). rewrite (G _ _ _ Hz). reflexivity.
  - destruct (mapM_ok_nth _ _ _ Hv) as (L & N). intros n _ _ E. eexists; split; [reflexivity|lia].
  - destruct (mapM_ok_nth _ _ _ Hv) as (L & N). intros k x0 y0 E1 E2. injection E1 as <-. destruct (N _ _ E2) as (z & Hz & ->). rewrite (G _ _ _ Hz). reflexivity.
Qed.
(** defined as soon as one operand is an index and no entry of [b] is refused *)
Definition acceptable (P : Z -> Prop) (b : operand) : Prop := forall k y, entry b k = Some y -> P y.
Lemma entry_in {A} (l : list A) y : In y l -> exists k, nth_error l k = Some y.
Proof. intros H. apply In_nth_error in H. exact H. Qed.
Lemma arithmetic_defined fr (P : Z -> Prop) a b : (forall x y, P y -> exists z, fr x y = Ok z) ->
  (is_index a \/ is_index b) -> a <> OOther -> b <> OOther -> acceptable P b -> exists r, arithmetic fr a b = Ok r.
Proof.
  intros T I Na Nb Ac. unfold arithmetic.
  destruct a as [x|l|x|], b as [y|m|y|]; try congruence; simpl in *; try tauto.
  all: try (destruct (T x y (Ac 0 y eq_refl)) as (z & ->); simpl; eexists; reflexivity).
  all: try (destruct (zipM_total fr l m) as (r & ->); [intros u v V; apply T; destruct (entry_in _ _ V) as (k & K); apply (Ac k), K|simpl; eexists; reflexivity]).
  all: try (destruct (mapM_total (fun i => fr i y) l) as (r & ->); [intros u _; apply T, (Ac 0); reflexivity|simpl; eexists; reflexivity]).
  all: destruct (mapM_total (fun i => fr x i) m) as (r & ->); [intros u V; apply T; destruct (entry_in _ _ V) as (k & K); apply (Ac k), K|simpl; eexists; reflexivity].
Qed.

Lemma pow_scalar a y : forall b, (b = OVal y \/ b = OInt y) -> a <> OOther -> (is_index a \/ is_index b) ->
  ((y < 0)%Z -> index_pow a b = Raise ValueError) /\
  ((0 <= y)%Z -> exists r, index_pow a b = Ok r /\ entrywise Z.pow a b r).
Proof.
  intros b B Na I. split; intros Y.
  - destruct B as [-> | ->]; unfold index_pow; simpl; destruct (Z.ltb_spec y 0); try lia; reflexivity.
  - assert (E : index_pow a b = arithmetic (fun x z => Ok (x ^ z)%Z) a b).
    { destruct B as [-> | ->]; unfold index_pow; simpl; destruct (Z.ltb_spec y 0); try lia; reflexivity. }
    rewrite E. destruct (arithmetic_defined (fun x z => Ok (x ^ z)%Z) (fun _ => True) a b) as (r & Hr); auto.
    + intros; eexists; reflexivity.
    + destruct B as [-> | ->]; discriminate.
    + intros k z _. exact Logic.I.
    + exists r. split; [exact Hr|]. refine (arithmetic_entrywise (fun x z => Ok (x ^ z)%Z) Z.pow _ _ _ _ Hr). intros u v w W. injection W as <-. reflexivity.
Qed.
Lemma mapM_Ok {A B} (g : A -> B) l : mapM (fun x => Ok (g x)) l = Ok (map g l).
Proof. induction l as [|a l IH]; simpl; [reflexivity|]. rewrite IH. reflexivity. Qed.
Lemma pow_sequence a l : 2 <= length l -> index_pow a (OSeq l) = Raise ValueError.
Proof.
  intros L. unfold index_pow. simpl. rewrite (mapM_Ok (fun i => (i <? 0)%Z) l). simpl.
  destruct l as [|x [|y l]]; simpl in L; try lia. reflexivity.
Qed.

(** ** Ellipsis *)
Definition no_ell (l : list sub) : Prop := ~ In SEll l.
Lemma no_ell_filter l : no_ell l -> filter is_ell l = [].
Proof.
  intros H. induction l as [|x l IH]; [reflexivity|]. simpl. destruct (is_ell x) eqn:E.
  - exfalso. apply H. left. destruct x; try discriminate; reflexivity.
  - apply IH. intros I. apply H. right. exact I.
Qed.
Lemma ell_pos_app pre post : no_ell pre -> ell_pos (pre ++ SEll :: post) = length pre.
Proof.
  induction pre as [|x pre IH]; intros H; [reflexivity|]. simpl. destruct (is_ell x) eqn:E.
  - exfalso. apply H. left. destruct x; try discriminate; reflexivity.
  - rewrite IH; [reflexivity|]. intros I. apply H. right. exact I.
Qed.
Lemma last_post pre x post : post <> [] -> last (pre ++ x :: post) SNone = last post SNone.
Proof.
  intros H. induction pre as [|y pre IH].
  - simpl. destruct post; [congruence|reflexivity].
  - simpl. destruct (pre ++ x :: post) eqn:E; [destruct pre; discriminate|]. exact IH.
Qed.
Lemma last_in {A} (l : list A) d : l <> [] -> In (last l d) l.
Proof. induction l as [|x l IH]; [congruence|]. intros _. destruct l; [left; reflexivity|right; apply IH; discriminate]. Qed.
Lemma is_ell_true x : is_ell x = true -> x = SEll.
Proof. destruct x; simpl; congruence. Qed.
Lemma is_ell_false x : is_ell x = false -> x <> SEll.
Proof. intros H ->. discriminate. Qed.

Lemma expand_one n pre post : no_ell pre -> no_ell post ->
  expand_ellipsis n (pre ++ SEll :: post) =
  if Nat.ltb n (length pre + length post + 1) && match post with [] => false | _ => true end then Raise IndexError
  else Ok (pre ++ repeat (SSlice full_slice) (n - (length pre + length post)) ++ post).
Proof.
  intros H1 H2. unfold expand_ellipsis.
  assert (L : length (pre ++ SEll :: post) = length pre + length post + 1) by (rewrite app_length; simpl; lia).
  rewrite L.
  assert (Lst : negb (is_ell (last (pre ++ SEll :: post) SNone)) = match post with [] => false | _ => true end).
  { destruct post as [|x post].
    - rewrite last_last. reflexivity.
    - rewrite last_post by discriminate. destruct (is_ell (last (x :: post) SNone)) eqn:E; [|reflexivity].
      exfalso. apply H2. apply is_ell_true in E. rewrite <- E. apply last_in. discriminate. }
  rewrite Lst. destruct (Nat.ltb _ _ && _); [reflexivity|].
  assert (C : count_ell (pre ++ SEll :: post) = 1).
  { unfold count_ell. rewrite filter_app. simpl. rewrite (no_ell_filter pre H1), (no_ell_filter post H2). reflexivity. }
  rewrite C. change (Nat.eqb 1 0) with false. change (Nat.ltb 1 1) with false. cbv iota.
  rewrite ell_pos_app by exact H1.
  rewrite firstn_app, firstn_all, Nat.sub_diag. simpl (firstn 0 _). rewrite app_nil_r.
  rewrite skipn_app, skipn_all2 by lia. replace (length pre + 1 - length pre) with 1 by lia. simpl (skipn 1 _).
  replace (n + 1 - (length pre + length post + 1)) with (n - (length pre + length post)) by lia.
  reflexivity.
Qed.
Lemma expand_none n l : no_ell l -> length l <= n -> expand_ellipsis n l = Ok l.
Proof.
  intros H L. unfold expand_ellipsis. destruct (Nat.ltb_spec n (length l)); [lia|]. simpl.
  unfold count_ell. rewrite no_ell_filter by exact H. reflexivity.
Qed.
Lemma expand_too_many n l : no_ell l -> n < length l -> expand_ellipsis n l = Raise IndexError.
Proof.
  intros H L. unfold expand_ellipsis. destruct (Nat.ltb_spec n (length l)); [|lia].
  destruct (is_ell (last l SNone)) eqn:E; [|reflexivity]. exfalso. apply H. apply is_ell_true in E. rewrite <- E.
  apply last_in. destruct l; [simpl in L; lia|discriminate].
Qed.
Lemma count_two l1 l2 l3 : 2 <= count_ell (l1 ++ SEll :: l2 ++ SEll :: l3).
Proof. unfold count_ell. rewrite filter_app. cbn. rewrite filter_app. cbn. rewrite !app_length. cbn. rewrite app_length. cbn. lia. Qed.
Lemma expand_two n l1 l2 l3 : expand_ellipsis n (l1 ++ SEll :: l2 ++ SEll :: l3) = Raise IndexError.
Proof.
  unfold expand_ellipsis. destruct (_ && _); [reflexivity|]. pose proof (count_two l1 l2 l3) as C.
  destruct (Nat.eqb_spec (count_ell (l1 ++ SEll :: l2 ++ SEll :: l3)) 0); [lia|].
  destruct (Nat.ltb_spec 1 (count_ell (l1 ++ SEll :: l2 ++ SEll :: l3))); [reflexivity|lia].
Qed.
