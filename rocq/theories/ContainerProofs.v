From Verif Require Import PyBase PyLemmas ContainerModel ContainerSpec.
From Coq Require Import Sorted Lqa.
Set Default Proof Using "Type".

(** ** membership, unique *)
Section Generic.
Context {A : Type} (eqb : A -> A -> bool) (dec : decides eqb).

Lemma mem_spec x l : mem eqb x l = true <-> In x l.
Proof using dec.
  unfold mem. rewrite existsb_exists. split.
  - intros (y & H & E). apply dec in E. subst. exact H.
  - intros H. exists x. split; [exact H | apply dec; reflexivity].
Qed.
Lemma mem_false x l : mem eqb x l = false <-> ~ In x l.
Proof using dec. rewrite <- mem_spec. destruct (mem eqb x l); split; congruence. Qed.
Lemma in_dec_b (x : A) l : In x l \/ ~ In x l.
Proof using dec. destruct (mem eqb x l) eqn:E; [left; apply mem_spec, E | right; apply mem_false, E]. Qed.

Lemma subseq_refl (l : list A) : subseq l l.
Proof. induction l; constructor; auto. Qed.
Lemma subseq_nil (l : list A) : subseq [] l.
Proof. induction l; constructor; auto. Qed.
Lemma subseq_app (a b l m : list A) : subseq a l -> subseq b m -> subseq (a ++ b) (l ++ m).
Proof. induction 1; simpl; intros H'; [exact H' | constructor; auto | constructor; auto]. Qed.
Lemma subseq_in (a l : list A) x : subseq a l -> In x a -> In x l.
Proof. induction 1; simpl; intros H'; [exact H' | destruct H'; auto | auto]. Qed.
Lemma subseq_length (a l : list A) : subseq a l -> length a <= length l.
Proof. induction 1; simpl; lia. Qed.
Lemma subseq_filter (f : A -> bool) (l : list A) : subseq (filter f l) l.
Proof. induction l as [|x l IH]; simpl; [constructor|]. destruct (f x); constructor; exact IH. Qed.
Lemma subseq_nodup (a l : list A) : subseq a l -> NoDup l -> NoDup a.
Proof.
  induction 1; intros ND; [constructor | |]; inversion ND; subst; auto.
  constructor; auto. intros H'. eapply subseq_in in H'; eauto.
Qed.
Lemma subseq_is_filter (a l : list A) : subseq a l -> NoDup l -> a = filter (fun i => mem eqb i a) l.
Proof using dec.
  induction 1 as [|x a l S IH|x a l S IH]; intros ND; [reflexivity| |]; inversion ND as [|? ? N ND']; subst; cbn [filter].
  - rewrite (proj2 (mem_spec x (x :: a))) by (left; reflexivity). f_equal. rewrite (IH ND') at 1.
    apply filter_ext_in. intros y Hy. apply Bool.eq_iff_eq_true. rewrite !mem_spec. simpl. split; [auto|].
    intros [->|H]; [contradiction | exact H].
  - rewrite (proj2 (mem_false x a)); [apply IH, ND'|]. intros H. apply N. eapply subseq_in; eauto.
Qed.

Lemma unique_loop_spec items : forall c, NoDup c ->
  exists l, unique_loop eqb c items = c ++ l /\ NoDup (c ++ l) /\ (forall x, In x (c ++ l) <-> In x c \/ In x items) /\
    subseq l items.
Proof using dec.
  induction items as [|y items IH]; intros c ND; cbn [unique_loop].
  - exists []. rewrite app_nil_r. repeat split; auto; [intros [H|[]]; exact H | constructor].
  - destruct (mem eqb y c) eqn:E.
    + apply mem_spec in E. destruct (IH c ND) as (l & E1 & E2 & E3 & E4). exists l. repeat split; auto.
      * intros H. apply E3 in H as [|]; simpl; auto.
      * intros [H|[<-|H]]; apply E3; auto.
      * constructor. exact E4.
    + apply mem_false in E. destruct (IH (c ++ [y])) as (l & E1 & E2 & E3 & E4).
      * apply NoDup_rev in ND. rewrite <- (rev_involutive (c ++ [y])). apply NoDup_rev. rewrite rev_app_distr. simpl.
        constructor; [rewrite <- in_rev; exact E | exact ND].
      * exists (y :: l). rewrite E1. rewrite <- app_assoc in *. cbn [app] in *. repeat split; auto.
        -- intros H. apply E3 in H as [H|H]; [|simpl; auto]. apply in_app_iff in H as [H|[<-|[]]]; simpl; auto.
        -- intros [H|[<-|H]]; apply E3; rewrite in_app_iff; simpl; auto.
        -- constructor. exact E4.
Qed.
Lemma unique_items_spec items : NoDup (unique_items eqb items) /\ (forall x, In x (unique_items eqb items) <-> In x items) /\
  subseq (unique_items eqb items) items.
Proof using dec.
  destruct (unique_loop_spec items [] (NoDup_nil _)) as (l & E & ND & I & S). unfold unique_items. rewrite E. cbn [app] in *.
  repeat split; auto; intros H; [apply I in H as [[]|H]; exact H | apply I; auto].
Qed.
Lemma unique_length items : length (unique_items eqb items) = length items <-> NoDup items.
Proof using dec.
  destruct (unique_items_spec items) as (ND & I & S). split.
  - intros L. assert (unique_items eqb items = items) as <-; [|exact ND]. clear -S L. revert S L.
    generalize (unique_items eqb items). intros l. induction 1; simpl; intros L; [reflexivity | f_equal; apply IHS; lia |].
    exfalso. assert (length a <= length l); [|lia]. clear -S. induction S; simpl; lia.
  - intros ND'. apply Nat.le_antisymm; apply NoDup_incl_length; auto; intros x Hx; apply I; exact Hx.
Qed.
(** first occurrences, in order: an earlier first occurrence comes earlier *)
Lemma unique_order items : forall c l, unique_loop eqb c items = c ++ l ->
  forall i j x y, first_at items i x -> first_at items j y -> ~ In x c -> ~ In y c -> i < j ->
  exists a b, l = a ++ b /\ In x a /\ In y b /\ ~ In y a.
Proof using dec.
  induction items as [|z items IH]; intros c l E i j x y [Fx Lx] [Fy Ly] Nx Ny L; [destruct i; discriminate|].
  cbn [unique_loop] in E. destruct (mem eqb z c) eqn:M.
  - apply mem_spec in M. destruct i as [|i]; [injection Fx as ->; contradiction|]. destruct j as [|j]; [lia|].
    apply (IH c l E i j x y); auto; [split|split|lia].
    + exact Fx. + intros k Hk. apply (Lx (S k)). lia. + exact Fy. + intros k Hk. apply (Ly (S k)). lia.
  - apply mem_false in M. rewrite <- (app_nil_r (c ++ [z])) in E.
    assert (E' : exists l', l = z :: l' /\ unique_loop eqb (c ++ [z]) items = (c ++ [z]) ++ l').
    { rewrite app_nil_r in E. clear -E. assert (G : forall it c0, exists l', unique_loop eqb c0 it = c0 ++ l').
      { induction it as [|w it IH]; intros c0; cbn [unique_loop]; [exists []; rewrite app_nil_r; reflexivity|].
        destruct (mem eqb w c0); [apply IH|]. destruct (IH (c0 ++ [w])) as (l' & ->). exists (w :: l'). rewrite <- app_assoc. reflexivity. }
      destruct (G items (c ++ [z])) as (l' & El). exists l'. split; [|exact El]. rewrite El, <- app_assoc in E. apply app_inv_head in E. symmetry. exact E. }
    destruct E' as (l' & -> & E'). destruct j as [|j]; [lia|].
    assert (Fy' : first_at items j y).
    { split; [exact Fy|]. intros k Hk. apply (Ly (S k)). lia. }
    assert (zy : z <> y) by (intros ->; apply (Ly 0); [lia | reflexivity]).
    destruct i as [|i].
    + injection Fx as ->. exists [x], l'. repeat split; [left; reflexivity| |].
      * assert (In y l'); [|assumption]. clear IH. destruct (unique_loop_spec items []) as (_ & _); [constructor|].
        assert (G : forall it c0 l0, unique_loop eqb c0 it = c0 ++ l0 -> In y it -> ~ In y c0 -> In y l0).
        { clear -dec. induction it as [|w it IH]; intros c0 l0 E Hy N; [destruct Hy|]. cbn [unique_loop] in E.
          destruct (mem eqb w c0) eqn:M.
          - destruct Hy as [->|Hy]; [apply mem_spec in M; contradiction | eapply IH; eauto].
          - assert (G : exists l1, unique_loop eqb (c0 ++ [w]) it = (c0 ++ [w]) ++ l1).
            { clear. generalize (c0 ++ [w]). induction it as [|v it IH]; intros c1; cbn [unique_loop]; [exists []; rewrite app_nil_r; reflexivity|].
              destruct (mem eqb v c1); [apply IH|]. destruct (IH (c1 ++ [v])) as (l' & ->). exists (v :: l'). rewrite <- app_assoc. reflexivity. }
            destruct G as (l1 & G). rewrite G, <- app_assoc in E. apply app_inv_head in E. subst l0.
            destruct (in_dec_b y [w]) as [[->|[]]|Nw]; [left; reflexivity|]. right.
            apply (IH (c0 ++ [w]) l1 G); [destruct Hy as [->|Hy]; [exfalso; apply Nw; left; reflexivity | exact Hy]|].
            rewrite in_app_iff. tauto. }
        eapply G; [exact E' | eapply nth_error_In, Fy' |]. rewrite in_app_iff. simpl. tauto.
      * intros [->|[]]. congruence.
    + assert (zx : z <> x) by (intros ->; apply (Lx 0); [lia | reflexivity]).
      destruct (IH (c ++ [z]) l' E' i j x y) as (a & b & -> & Ha & Hb & Hc).
      * split; [exact Fx|]. intros k Hk. apply (Lx (S k)). lia.
      * exact Fy'.
      * rewrite in_app_iff. simpl. tauto.
      * rewrite in_app_iff. simpl. tauto.
      * lia.
      * exists (z :: a), b. repeat split; [right; exact Ha | exact Hb |]. intros [->|H]; [congruence | exact (Hc H)].
Qed.

(** ** merge *)
Lemma list_eqb_spec a : forall b, list_eqb eqb a b = true <-> a = b.
Proof using dec.
  induction a as [|x a IH]; intros [|y b]; simpl; try (split; [discriminate | discriminate]); try tauto.
  rewrite andb_true_iff, IH, (dec x y). split; [intros [-> ->]; reflexivity | intros H; injection H; auto].
Qed.
Lemma filter_cons_split (f : A -> bool) l v r : filter f l = v :: r ->
  exists a b, l = a ++ v :: b /\ f v = true /\ (forall x, In x a -> f x = false) /\ filter f b = r.
Proof.
  induction l as [|x l IH]; simpl; [discriminate|]. destruct (f x) eqn:E.
  - intros H. injection H as -> <-. exists [], l. repeat split; auto. intros y [].
  - intros H. destruct (IH H) as (a & b & -> & F & N & R). exists (x :: a), b. repeat split; auto.
    intros y [<-|Hy]; auto.
Qed.
Lemma filter_nil_none (f : A -> bool) l : filter f l = [] -> forall x, In x l -> f x = false.
Proof.
  induction l as [|y l IH]; simpl; [intros _ x []|]. destruct (f y) eqn:E; [discriminate|]. intros H x [<-|Hx]; auto.
Qed.
Lemma index_of_app v a b : ~ In v a -> index_of eqb v (a ++ v :: b) = Ok (length a).
Proof using dec.
  induction a as [|x a IH]; intros N; simpl.
  - rewrite (proj2 (dec v v) eq_refl). reflexivity.
  - destruct (eqb x v) eqn:E; [apply dec in E; subst; exfalso; apply N; left; reflexivity|].
    rewrite IH; [reflexivity|]. intros H. apply N. right. exact H.
Qed.
Lemma slice_mid (a b c : list A) : slice (length a) (length (a ++ b)) (a ++ b ++ c) = b.
Proof.
  unfold slice. rewrite skipn_app, skipn_all, Nat.sub_diag. cbn [skipn app]. rewrite app_length.
  replace (length a + length b - length a) with (length b) by lia.
  rewrite firstn_app, firstn_all, Nat.sub_diag. cbn [firstn]. apply app_nil_r.
Qed.
Lemma nodup_app_iff (a b : list A) : NoDup (a ++ b) <-> NoDup a /\ NoDup b /\ forall x, In x a -> ~ In x b.
Proof.
  induction a as [|y a IH]; simpl.
  - split; [intros H; repeat split; [constructor | exact H | intros x []] | tauto].
  - rewrite !NoDup_cons_iff, IH, in_app_iff. split.
    + intros (N & Ha & Hb & D). repeat split; auto. intros x [<-|H]; auto.
    + intros ((N & Ha) & Hb & D). repeat split; auto. intros [H|H]; [auto|]. apply (D y); auto.
Qed.

Lemma merge_loop_ok ab : forall x1 x2 y1 y2 out, NoDup (x1 ++ x2) -> NoDup (y1 ++ y2) ->
  filter (fun i => mem eqb i (y1 ++ y2)) x2 = ab -> filter (fun i => mem eqb i (x1 ++ x2)) y2 = ab ->
  exists l, merge_loop eqb (x1 ++ x2) (y1 ++ y2) ab out (length x1) (length y1) = Ok (out ++ l) /\
    subseq x2 l /\ subseq y2 l /\ (forall v, In v l <-> In v x2 \/ In v y2) /\ NoDup l.
Proof using dec.
  induction ab as [|v ab IH]; intros x1 x2 y1 y2 out NX NY FX FY; cbn [merge_loop].
  - exists (x2 ++ y2). unfold slice_from. rewrite !skipn_app, !skipn_all, !Nat.sub_diag. cbn [skipn app].
    split; [reflexivity|].
    split; [rewrite <- (app_nil_r x2) at 1; apply subseq_app; [apply subseq_refl | apply subseq_nil]|].
    split; [change y2 with ([] ++ y2) at 1; apply subseq_app; [apply subseq_nil | apply subseq_refl]|].
    split; [intros v; apply in_app_iff|].
    apply nodup_app_iff in NX as (_ & NX & _). apply nodup_app_iff in NY as (_ & NY & _).
    apply nodup_app_iff. repeat split; auto. intros v Hx Hy.
    pose proof (filter_nil_none _ _ FX v Hx) as M. apply mem_false in M. apply M, in_app_iff. auto.
  - destruct (filter_cons_split _ _ _ _ FX) as (xa & xb & -> & Mv & Nxa & FX').
    destruct (filter_cons_split _ _ _ _ FY) as (ya & yb & -> & Mv' & Nya & FY').
    assert (Nvx : ~ In v (x1 ++ xa) /\ ~ In v xb).
    { rewrite app_assoc in NX. apply NoDup_remove_2 in NX. rewrite in_app_iff in NX. tauto. }
    assert (Nvy : ~ In v (y1 ++ ya) /\ ~ In v yb).
    { rewrite app_assoc in NY. apply NoDup_remove_2 in NY. rewrite in_app_iff in NY. tauto. }
    rewrite (app_assoc x1 xa (v :: xb)), (app_assoc y1 ya (v :: yb)).
    rewrite (index_of_app v (x1 ++ xa) xb (proj1 Nvx)), (index_of_app v (y1 ++ ya) yb (proj1 Nvy)). cbn [bind].
    rewrite <- (app_assoc x1 xa (v :: xb)), <- (app_assoc y1 ya (v :: yb)), !slice_mid.
    assert (EX : x1 ++ xa ++ v :: xb = (x1 ++ xa ++ [v]) ++ xb) by (rewrite <- !app_assoc; reflexivity).
    assert (EY : y1 ++ ya ++ v :: yb = (y1 ++ ya ++ [v]) ++ yb) by (rewrite <- !app_assoc; reflexivity).
    rewrite EX, EY.
    replace (length (x1 ++ xa) + 1) with (length (x1 ++ xa ++ [v])) by (rewrite !app_length; simpl; lia).
    replace (length (y1 ++ ya) + 1) with (length (y1 ++ ya ++ [v])) by (rewrite !app_length; simpl; lia).
    rewrite EX, EY in *.
    destruct (IH (x1 ++ xa ++ [v]) xb (y1 ++ ya ++ [v]) yb ((out ++ xa ++ ya) ++ [v]) NX NY FX' FY') as (l & E & Sx & Sy & I & ND).
    exists (xa ++ ya ++ v :: l). rewrite E. split; [f_equal; rewrite <- !app_assoc; reflexivity|].
    split; [apply subseq_app; [apply subseq_refl|]; change (v :: xb) with ([] ++ v :: xb); apply subseq_app; [apply subseq_nil | constructor; exact Sx]|].
    split; [change (ya ++ v :: yb) with ([] ++ ya ++ v :: yb); apply subseq_app; [apply subseq_nil | apply subseq_app; [apply subseq_refl | constructor; exact Sy]]|].
    split.
    { intros w. rewrite !in_app_iff. simpl. rewrite I. tauto. }
    assert (Dx : forall w, In w xa -> ~ In w ya /\ w <> v /\ ~ In w l).
    { intros w Hw. pose proof (Nxa w Hw) as M. apply mem_false in M. rewrite !in_app_iff in M. simpl in M.
      rewrite I. assert (~ In w xb); [|intuition; subst; tauto].
      intros Hb. rewrite <- EX in NX. apply nodup_app_iff in NX as (_ & NX & _). apply nodup_app_iff in NX as (_ & _ & NX).
      apply (NX w Hw). right. exact Hb. }
    assert (Dy : forall w, In w ya -> w <> v /\ ~ In w l).
    { intros w Hw. pose proof (Nya w Hw) as M. apply mem_false in M. rewrite !in_app_iff in M. simpl in M.
      rewrite I. assert (~ In w yb); [|intuition; subst; tauto].
      intros Hb. rewrite <- EY in NY. apply nodup_app_iff in NY as (_ & NY & _). apply nodup_app_iff in NY as (_ & _ & NY).
      apply (NY w Hw). right. exact Hb. }
    rewrite <- EX in NX. rewrite <- EY in NY.
    apply nodup_app_iff in NX as (_ & NX & _). apply nodup_app_iff in NX as (NXa & _ & _).
    apply nodup_app_iff in NY as (_ & NY & _). apply nodup_app_iff in NY as (NYa & _ & _).
    apply nodup_app_iff. split; [exact NXa|]. split.
    + apply nodup_app_iff. split; [exact NYa|]. split.
      * constructor; [rewrite I; tauto | exact ND].
      * intros w Hw [->|H]; [apply (proj1 (Dy w Hw)); reflexivity | exact (proj2 (Dy w Hw) H)].
    + intros w Hw. destruct (Dx w Hw) as (D1 & D2 & D3). rewrite in_app_iff. simpl. intuition.
Qed.

Lemma common_nil x y : existsb (fun i => mem eqb i y) x = false -> forall v, In v x -> ~ In v y.
Proof using dec.
  intros H v Hx Hy. assert (existsb (fun i => mem eqb i y) x = true); [|congruence].
  apply existsb_exists. exists v. split; [exact Hx | apply mem_spec, Hy].
Qed.
Lemma merge_ok x y l : NoDup x -> NoDup y -> merge eqb x y = Ok l ->
  subseq x l /\ subseq y l /\ (forall v, In v l <-> In v x \/ In v y) /\ NoDup l.
Proof using dec.
  intros NX NY. unfold merge. destruct existsb eqn:C.
  - destruct (list_eqb eqb _ _) eqn:L; cbn [negb]; [|discriminate]. apply list_eqb_spec in L. intros E.
    destruct (merge_loop_ok _ [] x [] y [] NX NY eq_refl (eq_sym L)) as (l' & E' & H). cbn [app length] in *.
    assert (l' = l) by congruence. subst. tauto.
  - intros E. injection E as <-. pose proof (common_nil _ _ C) as D.
    split; [rewrite <- (app_nil_r x) at 1; apply subseq_app; [apply subseq_refl | apply subseq_nil]|].
    split; [change y with ([] ++ y) at 1; apply subseq_app; [apply subseq_nil | apply subseq_refl]|].
    split; [intros v; apply in_app_iff | apply nodup_app_iff; auto].
Qed.
Lemma merge_total x y : NoDup x -> NoDup y -> exists r, merge eqb x y = r /\ (r = Raise MergeError \/ exists l, r = Ok l).
Proof using dec.
  intros NX NY. unfold merge. destruct existsb eqn:C; [|eauto].
  destruct (list_eqb eqb _ _) eqn:L; cbn [negb]; [|eauto]. apply list_eqb_spec in L.
  destruct (merge_loop_ok _ [] x [] y [] NX NY eq_refl (eq_sym L)) as (l' & E' & H). cbn [app length] in *. eauto.
Qed.
Lemma merge_complete x y l : NoDup x -> NoDup y -> NoDup l -> subseq x l -> subseq y l -> exists m, merge eqb x y = Ok m.
Proof using dec.
  intros NX NY NL SX SY. unfold merge. destruct existsb eqn:C; [|eauto].
  assert (L : filter (fun i => mem eqb i y) x = filter (fun i => mem eqb i x) y).
  { assert (G : forall (f g : A -> bool) l0, filter f (filter g l0) = filter g (filter f l0)).
    { clear. intros f g. induction l0 as [|a l0 IH]; [reflexivity|]. cbn [filter].
      destruct (f a) eqn:Fa, (g a) eqn:Ga; cbn [filter]; rewrite ?Fa, ?Ga, IH; reflexivity. }
    transitivity (filter (fun i => mem eqb i y) (filter (fun i => mem eqb i x) l)); [f_equal; apply subseq_is_filter; assumption|].
    rewrite G. f_equal. symmetry. apply subseq_is_filter; assumption. }
  rewrite (proj2 (list_eqb_spec _ _) L). cbn [negb].
  destruct (merge_loop_ok _ [] x [] y [] NX NY eq_refl (eq_sym L)) as (l' & E' & H). cbn [app length] in *. eauto.
Qed.
End Generic.
