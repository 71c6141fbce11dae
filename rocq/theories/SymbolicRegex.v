(** Facts about the pattern combinators and number texts. *)
From Verif Require Import PyBase PyLemmas SymbolicModel SymbolicSpec.
From Coq Require Import ZifyBool ZifyNat ZifyN.

(** ** first matches *)
Lemma hd_seq p q x a y b z :
  hd_error (p x) = Some (a, y) -> hd_error (q y) = Some (b, z) ->
  hd_error (p_seq p q x) = Some (a ++ b, z).
Proof.
  unfold p_seq. destruct (p x) as [|[a' y'] l]; simpl; [discriminate|].
  intros H1 H2. injection H1 as -> ->. destruct (q y) as [|[b' z'] l']; simpl in *; [discriminate|].
  injection H2 as -> ->. reflexivity.
Qed.
Lemma hd_seq_nil p q x :  p x = [] -> p_seq p q x = [].
Proof. unfold p_seq. intros ->. reflexivity. Qed.
Lemma hd_alt_l p q x m : hd_error (p x) = Some m -> hd_error (p_alt p q x) = Some m.
Proof. unfold p_alt. destruct (p x); simpl; [discriminate | auto]. Qed.
Lemma hd_alt_r p q x m : p x = [] -> hd_error (q x) = Some m -> hd_error (p_alt p q x) = Some m.
Proof. unfold p_alt. intros ->. auto. Qed.
Lemma opt_nil p x : p x = [] -> p_opt p x = [([], x)].
Proof. unfold p_opt, p_alt. intros ->. reflexivity. Qed.

Definition nothead (f : ascii -> bool) (x : str) : bool :=
  match x with [] => true | c :: _ => negb (f c) end.

Lemma chr_nil f x : nothead f x = true -> p_chr f x = [].
Proof. destruct x as [|c x]; simpl; [reflexivity|]. destruct (f c); [discriminate|reflexivity]. Qed.
Lemma star_nil f x : nothead f x = true -> p_star f x = [([], x)].
Proof. destruct x as [|c x]; simpl; [reflexivity|]. destruct (f c); [discriminate|reflexivity]. Qed.

Lemma star_hd f ds k :
  Forall (fun c => f c = true) ds -> nothead f k = true ->
  hd_error (p_star f (ds ++ k)) = Some (ds, k).
Proof.
  intros F K. induction F as [|d ds Hd F IH]; cbn [app].
  - rewrite star_nil by exact K. reflexivity.
  - cbn [p_star]. rewrite Hd. destruct (p_star f (ds ++ k)) as [|m l]; [discriminate|].
    simpl in *. injection IH as ->. reflexivity.
Qed.
(** every match of a starred class on [ds ++ k] splits [ds] *)
Lemma star_in f ds k a y :
  Forall (fun c => f c = true) ds -> nothead f k = true ->
  In (a, y) (p_star f (ds ++ k)) -> exists ds2, ds = a ++ ds2 /\ y = ds2 ++ k.
Proof.
  intros F K. revert a. induction F as [|d ds Hd F IH]; intros a; cbn [app].
  - rewrite star_nil by exact K. intros [H|[]]. injection H as <- <-. exists []. auto.
  - cbn [p_star]. rewrite Hd. intros H. apply in_app_or in H as [H|[H|[]]].
    + apply in_map_iff in H as ((a' & y') & E & H). simpl in E. injection E as <- <-.
      destruct (IH a' H) as (ds2 & -> & ->). exists ds2. auto.
    + injection H as <- <-. exists (d :: ds). auto.
Qed.
Lemma plus_hd f d ds k :
  f d = true -> Forall (fun c => f c = true) ds -> nothead f k = true ->
  hd_error (p_plus f (d :: ds ++ k)) = Some (d :: ds, k).
Proof.
  intros Hd F K. unfold p_plus. change (d :: ds) with ([d] ++ ds).
  eapply hd_seq with (y := ds ++ k).
  - simpl. rewrite Hd. reflexivity.
  - apply star_hd; assumption.
Qed.
Lemma plus_nil f x : nothead f x = true -> p_plus f x = [].
Proof. intros H. apply hd_seq_nil, chr_nil, H. Qed.

(** ** classes *)
Lemma digit_not_sign c : is_digit c = true -> is_sign c = false.
Proof.
  unfold is_sign. intros H. destruct (Ascii.eqb_spec c "-") as [->|]; [discriminate|].
  destruct (Ascii.eqb_spec c "+") as [->|]; [discriminate|]. reflexivity.
Qed.
Lemma digit_not_c c d : is_digit c = true -> is_digit d = false -> Ascii.eqb c d = false.
Proof. intros H1 H2. destruct (Ascii.eqb_spec c d) as [->|]; congruence. Qed.
Lemma basechar_not_digit c : is_basechar c = true -> is_digit c = false.
Proof.
  intros H.
  destruct (Ascii.eqb_spec c "#") as [E|N1]; [rewrite E; reflexivity|].
  destruct (Ascii.eqb_spec c "_") as [E|N2]; [rewrite E; reflexivity|].
  unfold is_basechar, is_alpha, is_digit in *. cbv zeta in *.
  rewrite (proj2 (Ascii.eqb_neq _ _) N1), (proj2 (Ascii.eqb_neq _ _) N2) in H.
  generalize dependent (N_of_ascii c). intros n H. lia.
Qed.
Lemma digit_not_basechar c : is_digit c = true -> is_basechar c = false.
Proof.
  intros H. destruct (is_basechar c) eqn:E; [|reflexivity].
  apply basechar_not_digit in E. congruence.
Qed.
Lemma basechar_not_sign c : is_basechar c = true -> is_sign c = false.
Proof.
  unfold is_sign. intros H. destruct (Ascii.eqb_spec c "-") as [->|]; [discriminate|].
  destruct (Ascii.eqb_spec c "+") as [->|]; [discriminate|]. reflexivity.
Qed.
Lemma basechar_not_c c d : is_basechar c = true -> is_basechar d = false -> Ascii.eqb c d = false.
Proof. intros H1 H2. destruct (Ascii.eqb_spec c d) as [->|]; congruence. Qed.

(** ** text that may follow a factor *)
Definition kok (k : str) : bool :=
  match k with
  | [] => true
  | c :: k' => Ascii.eqb c " " || Ascii.eqb c "*"
               || (Ascii.eqb c "/" && nothead is_digit k')
  end.
Lemma kok_cases k : kok k = true ->
  k = [] \/ (exists k', k = " "%char :: k') \/ (exists k', k = "*"%char :: k')
  \/ (exists k', k = "/"%char :: k' /\ nothead is_digit k' = true).
Proof.
  destruct k as [|c k]; simpl; [auto|]. intros H.
  destruct (Ascii.eqb_spec c " ") as [->|]; [eauto|].
  destruct (Ascii.eqb_spec c "*") as [->|]; [eauto|].
  destruct (Ascii.eqb_spec c "/") as [->|]; [|discriminate]. simpl in H. eauto 8.
Qed.
Lemma kok_nothead f k :
  kok k = true -> f " "%char = false -> f "*"%char = false -> f "/"%char = false ->
  nothead f k = true.
Proof.
  intros K H1 H2 H3. apply kok_cases in K as [->|[(k' & ->)|[(k' & ->)|(k' & -> & _)]]]; simpl;
    rewrite ?H1, ?H2, ?H3; reflexivity.
Qed.

(** ** the tail of a number *)
Definition re_tail : pat :=
  p_alt (p_seq (p_chr (is_c "/")) (p_lazyplus is_digit))
        (p_seq (p_opt (p_seq (p_chr (is_c ".")) (p_star is_digit)))
               (p_opt (p_seq (p_chr is_e)
                      (p_seq (p_opt (p_chr is_sign)) (p_plus is_digit))))).
Definition re_front : pat :=
  p_ahead (p_alt (p_chr is_digit) (p_seq (p_chr (is_c ".")) (p_chr is_digit))).
Lemma re_rational_eq :
  re_rational = p_seq (p_opt (p_chr is_sign)) (p_seq re_front (p_seq (p_star is_digit) re_tail)).
Proof. reflexivity. Qed.

(** nothing of [x] can continue a number *)
Definition tail_stops (x : str) : bool :=
  match x with
  | [] => true
  | c :: x' => negb (is_c "." c) && negb (is_e c)
               && (negb (is_c "/" c) || nothead is_digit x')
  end.
Lemma tail_stop x : tail_stops x = true -> re_tail x = [([], x)].
Proof.
  intros H. unfold re_tail, p_alt.
  assert (N1 : nothead (is_c ".") x = true /\ nothead is_e x = true).
  { destruct x as [|c x]; simpl in *; [auto|].
    destruct (is_c "." c), (is_e c); simpl in *; auto. }
  destruct N1 as [N1 N2].
  assert (E1 : p_seq (p_chr (is_c "/")) (p_lazyplus is_digit) x = []).
  { destruct x as [|c x]; [reflexivity|]. unfold p_seq. simpl.
    destruct (is_c "/" c) eqn:Ec; [|reflexivity]. simpl.
    simpl in H. rewrite Ec in H. apply andb_true_iff in H as [_ H]. simpl in H.
    unfold p_lazyplus. rewrite hd_seq_nil; [reflexivity|]. apply chr_nil. exact H. }
  rewrite E1. simpl. unfold p_seq at 1.
  rewrite opt_nil by (apply hd_seq_nil, chr_nil, N1). simpl.
  rewrite opt_nil by (apply hd_seq_nil, chr_nil, N2). reflexivity.
Qed.
Lemma kok_tail_stops k : kok k = true -> tail_stops k = true.
Proof.
  intros K. apply kok_cases in K as [->|[(k' & ->)|[(k' & ->)|(k' & -> & H)]]]; try reflexivity.
  simpl. exact H.
Qed.
Lemma digit_tail_stops d x : is_digit d = true -> tail_stops (d :: x) = true.
Proof.
  intros H. simpl. unfold is_c, is_e.
  rewrite !(digit_not_c d) by (exact H || reflexivity). reflexivity.
Qed.

(** ** digits of numbers *)
Lemma str_of_N_hd n : exists d ds, str_of_N n = d :: ds /\ is_digit d = true
                                   /\ Forall (fun c => is_digit c = true) ds.
Proof.
  pose proof (str_of_N_digits n) as F. pose proof (str_of_N_nonempty n) as NE.
  destruct (str_of_N n) as [|d ds]; [congruence|]. inversion F; subst. eauto.
Qed.

(** one-digit numbers *)
Lemma str_of_N_short p : (p <= 9)%positive ->
  exists d, str_of_N (Npos p) = [d] /\ is_digit d = true.
Proof.
  intros H.
  assert (C : (p = 1 \/ p = 2 \/ p = 3 \/ p = 4 \/ p = 5 \/ p = 6 \/ p = 7 \/ p = 8 \/ p = 9)%positive) by lia.
  destruct C as [->|[->|[->|[->|[->|[->|[->|[->| ->]]]]]]]]; eexists; split; reflexivity.
Qed.

(** shape of the text of a number: optional minus, digits, optional "/d" *)
Inductive num_shape : str -> Prop :=
| num_int sg d ds : (sg = [] \/ sg = ["-"%char]) -> is_digit d = true ->
    Forall (fun c => is_digit c = true) ds -> num_shape (sg ++ d :: ds)
| num_frac sg d ds q : (sg = [] \/ sg = ["-"%char]) -> is_digit d = true ->
    Forall (fun c => is_digit c = true) ds -> is_digit q = true ->
    num_shape (sg ++ d :: ds ++ ["/"%char; q]).

Lemma str_of_Z_shape z : exists sg d ds, str_of_Z z = sg ++ d :: ds /\
  (sg = [] \/ sg = ["-"%char]) /\ is_digit d = true /\ Forall (fun c => is_digit c = true) ds.
Proof.
  unfold str_of_Z. destruct z as [|p|p].
  - destruct (str_of_N_hd (Z.to_N 0)) as (d & ds & E & H1 & H2). exists [], d, ds. rewrite E. auto.
  - destruct (str_of_N_hd (Z.to_N (Zpos p))) as (d & ds & E & H1 & H2). exists [], d, ds. rewrite E. auto.
  - destruct (str_of_N_hd (Npos p)) as (d & ds & E & H1 & H2).
    exists ["-"%char], d, ds. rewrite E. auto.
Qed.
Lemma str_of_q_shape q : short_den q = true -> num_shape (str_of_q q).
Proof.
  unfold short_den, str_of_q. intros H.
  destruct (str_of_Z_shape (qnum q)) as (sg & d & ds & -> & H1 & H2 & H3).
  destruct (q_isint q).
  - constructor; auto.
  - destruct (str_of_N_short (qden q)) as (c & -> & Hc); [lia|].
    rewrite <- app_assoc. simpl. apply num_frac; auto.
Qed.

(** ** matching numbers *)
Lemma front_digit d x : is_digit d = true -> re_front (d :: x) = [([], d :: x)].
Proof. intros H. unfold re_front, p_ahead, p_alt. simpl. rewrite H. reflexivity. Qed.

Lemma sign_split sg d x : (sg = [] \/ sg = ["-"%char]) -> is_digit d = true ->
  p_seq (p_opt (p_chr is_sign)) re_front (sg ++ d :: x) = [(sg, d :: x)].
Proof.
  intros [->| ->] H.
  - simpl. unfold p_seq. rewrite opt_nil.
    + simpl. rewrite front_digit by exact H. reflexivity.
    + apply chr_nil. simpl. rewrite digit_not_sign by exact H. reflexivity.
  - cbn [app]. unfold p_seq, p_opt, p_alt. cbn [p_chr is_sign Ascii.eqb].
    cbn. rewrite front_digit by exact H. reflexivity.
Qed.

Lemma seq_assoc_in p q r x m :
  In m (p_seq p (p_seq q r) x) <-> In m (p_seq (p_seq p q) r x).
Proof.
  unfold p_seq. rewrite !in_flat_map. split.
  - intros ((a & y) & H1 & H2). apply in_map_iff in H2 as ((b & z) & <- & H2).
    apply in_flat_map in H2 as ((b1 & y1) & H2 & H3).
    apply in_map_iff in H3 as ((b2 & y2) & E & H3). simpl in *. injection E as <- <-.
    exists (a ++ b1, y1). split.
    + apply in_flat_map. exists (a, y). split; [exact H1|].
      apply in_map_iff. exists (b1, y1). auto.
    + apply in_map_iff. exists (b2, y2). simpl. rewrite app_assoc. auto.
  - intros ((a & y) & H1 & H2). apply in_flat_map in H1 as ((a1 & y1) & H0 & H1).
    apply in_map_iff in H1 as ((a2 & y2) & E & H1). simpl in *. injection E as <- <-.
    apply in_map_iff in H2 as ((b & z) & <- & H2).
    exists (a1, y1). split; [exact H0|]. apply in_map_iff. exists (a2 ++ b, z).
    simpl. rewrite app_assoc. split; [reflexivity|].
    apply in_flat_map. exists (a2, y2). split; [exact H1|].
    apply in_map_iff. exists (b, z). auto.
Qed.
Lemma map_flat_map {A B C} (f : B -> C) (g : A -> list B) l :
  map f (flat_map g l) = flat_map (fun x => map f (g x)) l.
Proof. induction l as [|x l IH]; simpl; [reflexivity|]. rewrite map_app, IH. reflexivity. Qed.
Lemma flat_map_map {A B C} (f : A -> B) (g : B -> list C) l :
  flat_map g (map f l) = flat_map (fun x => g (f x)) l.
Proof. induction l as [|x l IH]; simpl; [reflexivity|]. rewrite IH. reflexivity. Qed.
Lemma flat_map_flat_map {A B C} (f : A -> list B) (g : B -> list C) l :
  flat_map g (flat_map f l) = flat_map (fun x => flat_map g (f x)) l.
Proof. induction l as [|x l IH]; simpl; [reflexivity|]. rewrite flat_map_app, IH. reflexivity. Qed.
Lemma flat_map_ext' {A B} (f g : A -> list B) l : (forall x, f x = g x) -> flat_map f l = flat_map g l.
Proof. intros H. induction l as [|x l IH]; simpl; [reflexivity|]. rewrite H, IH. reflexivity. Qed.
Lemma seq_assoc p q r x : p_seq p (p_seq q r) x = p_seq (p_seq p q) r x.
Proof.
  unfold p_seq. rewrite flat_map_flat_map. apply flat_map_ext'. intros m.
  rewrite map_flat_map, flat_map_map. simpl. apply flat_map_ext'. intros n.
  rewrite map_map. simpl. apply map_ext. intros o. rewrite app_assoc. reflexivity.
Qed.

Lemma rational_on sg d x : (sg = [] \/ sg = ["-"%char]) -> is_digit d = true ->
  re_rational (sg ++ d :: x) =
  map (fun m => (sg ++ fst m, snd m)) (p_seq (p_star is_digit) re_tail (d :: x)).
Proof.
  intros H1 H2. rewrite re_rational_eq, seq_assoc. unfold p_seq at 1.
  rewrite sign_split by assumption. simpl. rewrite app_nil_r. reflexivity.
Qed.

Lemma lazyplus_one q k : is_digit q = true -> nothead is_digit k = true ->
  p_lazyplus is_digit (q :: k) = [([q], k)].
Proof.
  intros H K. unfold p_lazyplus, p_seq. simpl. rewrite H. simpl.
  destruct k as [|c k]; simpl; [reflexivity|]. simpl in K.
  destruct (is_digit c); [discriminate|reflexivity].
Qed.

Lemma kok_digit k : kok k = true -> nothead is_digit k = true.
Proof. intros K. apply kok_nothead; [exact K|reflexivity..]. Qed.

Lemma tail_frac q k : is_digit q = true -> kok k = true ->
  re_tail ("/"%char :: q :: k) = [(["/"%char; q], k); ([], "/"%char :: q :: k)].
Proof.
  intros H K. unfold re_tail, p_alt.
  assert (E : p_seq (p_chr (is_c "/")) (p_lazyplus is_digit) ("/"%char :: q :: k)
              = [(["/"%char; q], k)]).
  { unfold p_seq at 1. cbn [p_chr is_c Ascii.eqb]. simpl.
    rewrite lazyplus_one by (exact H || apply kok_digit, K). reflexivity. }
  rewrite E. reflexivity.
Qed.

Lemma rational_hd w k : num_shape w -> kok k = true ->
  hd_error (re_rational (w ++ k)) = Some (w, k).
Proof.
  intros S K. destruct S as [sg d ds H1 H2 H3 | sg d ds q H1 H2 H3 H4].
  - rewrite <- app_assoc. cbn [app]. rewrite rational_on by assumption.
    assert (E : hd_error (p_seq (p_star is_digit) re_tail (d :: ds ++ k)) = Some ((d :: ds) ++ [], k)).
    { eapply hd_seq with (y := k).
      - change (d :: ds ++ k) with ((d :: ds) ++ k). apply star_hd; [constructor; assumption|].
        apply kok_digit, K.
      - rewrite tail_stop by (apply kok_tail_stops, K). reflexivity. }
    rewrite app_nil_r in E.
    destruct (p_seq _ _ _) as [|m l]; [discriminate|]. simpl in *. injection E as ->. reflexivity.
  - rewrite <- app_assoc. cbn [app]. rewrite <- app_assoc. cbn [app].
    rewrite rational_on by assumption.
    assert (E : hd_error (p_seq (p_star is_digit) re_tail (d :: ds ++ "/"%char :: q :: k))
                = Some ((d :: ds) ++ ["/"%char; q], k)).
    { eapply hd_seq with (y := "/"%char :: q :: k).
      - change (d :: ds ++ "/"%char :: q :: k) with ((d :: ds) ++ "/"%char :: q :: k).
        apply star_hd; [constructor; assumption | reflexivity].
      - rewrite tail_frac by assumption. reflexivity. }
    destruct (p_seq _ _ _) as [|m l]; [discriminate|]. simpl in *. injection E as ->. reflexivity.
Qed.

(** After any (also backtracked) match of a number, no symbol can follow. *)
Lemma rational_rest w k a y : num_shape w -> kok k = true ->
  In (a, y) (re_rational (w ++ k)) -> nothead is_basechar y = true.
Proof.
  intros S K.
  assert (KB : nothead is_basechar k = true) by (apply kok_nothead; [exact K|reflexivity..]).
  assert (DB : forall ds x, Forall (fun c => is_digit c = true) ds ->
               nothead is_basechar x = true -> nothead is_basechar (ds ++ x) = true).
  { intros ds x F N. destruct F as [|c ds Hc F]; [exact N|]. simpl.
    rewrite digit_not_basechar by exact Hc. reflexivity. }
  assert (Hsplit : forall d ds x a y, is_digit d = true -> Forall (fun c => is_digit c = true) ds ->
     nothead is_digit x = true -> nothead is_basechar x = true ->
     (forall a' y', In (a', y') (re_tail x) -> nothead is_basechar y' = true) ->
     In (a, y) (p_seq (p_star is_digit) re_tail (d :: ds ++ x)) -> nothead is_basechar y = true).
  { clear a y. intros d ds x a y Hd F Nx Nb T H. unfold p_seq in H. apply in_flat_map in H as ((b & z) & H1 & H2).
    change (d :: ds ++ x) with ((d :: ds) ++ x) in H1.
    apply star_in in H1 as (ds2 & E & ->); [|constructor; assumption|exact Nx].
    apply in_map_iff in H2 as ((c & z') & E2 & H2). simpl in *. injection E2 as <- <-.
    assert (F2 : Forall (fun c => is_digit c = true) ds2).
    { assert (F' : Forall (fun c => is_digit c = true) (b ++ ds2)) by (rewrite <- E; constructor; assumption).
      apply Forall_app in F'. apply F'. }
    destruct ds2 as [|c2 ds2].
    - simpl in H2. eapply T. exact H2.
    - inversion F2; subst. cbn [app] in H2. rewrite tail_stop in H2 by (apply digit_tail_stops; assumption).
      destruct H2 as [H2|[]]. injection H2 as <- <-. simpl. rewrite digit_not_basechar by assumption. reflexivity. }
  destruct S as [sg d ds H1 H2 H3 | sg d ds q H1 H2 H3 H4].
  - rewrite <- app_assoc. cbn [app]. rewrite rational_on by assumption.
    intros H. apply in_map_iff in H as ((b & z) & E & H). simpl in E. injection E as <- <-.
    eapply Hsplit; [..|exact H]; try assumption; [apply kok_digit, K|].
    intros a' y'. rewrite tail_stop by (apply kok_tail_stops, K). intros [E|[]]. injection E as <- <-. exact KB.
  - rewrite <- app_assoc. cbn [app]. rewrite <- app_assoc. cbn [app].
    rewrite rational_on by assumption.
    intros H. apply in_map_iff in H as ((b & z) & E & H). simpl in E. injection E as <- <-.
    eapply Hsplit; [..|exact H]; try assumption; try reflexivity.
    intros a' y'. rewrite tail_frac by assumption. intros [E|[E|[]]]; injection E as <- <-; [exact KB|reflexivity].
Qed.

(** ** reading numbers back *)
Lemma span_digits_app ds x : Forall (fun c => is_digit c = true) ds -> nothead is_digit x = true ->
  span_digits (ds ++ x) = (ds, x).
Proof.
  intros F N. induction F as [|d ds Hd F IH]; cbn [app].
  - destruct x as [|c x]; simpl in *; [reflexivity|]. destruct (is_digit c); [discriminate|reflexivity].
  - cbn [span_digits]. rewrite Hd, IH. reflexivity.
Qed.

Lemma fraction_of_unsigned n x :
  fraction_of_str (str_of_N n ++ x) = fraction_unsigned (str_of_N n ++ x).
Proof.
  destruct (str_of_N_hd n) as (d & ds & E & H1 & H2). rewrite E. cbn [app fraction_of_str].
  rewrite digit_not_sign by exact H1. reflexivity.
Qed.
Lemma fraction_unsigned_nat n : fraction_unsigned (str_of_N n) = Ok (zq (Z.of_N n)).
Proof.
  unfold fraction_unsigned.
  pose proof (span_digits_app (str_of_N n) [] (str_of_N_digits n) eq_refl) as S.
  rewrite app_nil_r in S. rewrite S, N_of_str_of_N. reflexivity.
Qed.
Lemma fraction_unsigned_frac n d :
  fraction_unsigned (str_of_N n ++ "/"%char :: str_of_N (Npos d)) = Ok (mkq (Z.of_N n) d).
Proof.
  unfold fraction_unsigned. rewrite span_digits_app by (apply str_of_N_digits || reflexivity).
  change (Ascii.eqb "/" "/") with true. cbn beta iota.
  pose proof (span_digits_app (str_of_N (Npos d)) [] (str_of_N_digits _) eq_refl) as S.
  rewrite app_nil_r in S. rewrite S, !N_of_str_of_N.
  pose proof (N_of_str_of_N (Npos d)) as V.
  destruct (str_of_N (Npos d)) eqn:E2; [|rewrite V; reflexivity].
  exfalso. eapply str_of_N_nonempty; exact E2.
Qed.
Lemma fraction_of_str_of_q q : fraction_of_str (str_of_q q) = Ok q.
Proof.
  unfold str_of_q. destruct (q_isint q) eqn:I.
  - apply isint_zq in I. rewrite I at 2. unfold str_of_Z.
    destruct (qnum q) as [|p|p].
    + reflexivity.
    + rewrite <- (app_nil_r (str_of_N _)), fraction_of_unsigned, app_nil_r.
      apply fraction_unsigned_nat.
    + cbn [fraction_of_str]. change (is_sign "-") with true. cbn beta iota.
      rewrite fraction_unsigned_nat. cbn [bind]. change (Ascii.eqb "-" "-") with true.
      cbn beta iota. rewrite zq_opp. reflexivity.
  - rewrite <- (mkq_this q) at 3. unfold str_of_Z. destruct (qnum q) as [|p|p].
    + rewrite fraction_of_unsigned. apply fraction_unsigned_frac.
    + rewrite fraction_of_unsigned. apply fraction_unsigned_frac.
    + cbn [app fraction_of_str]. change (is_sign "-") with true. cbn beta iota.
      rewrite fraction_unsigned_frac. cbn [bind]. change (Ascii.eqb "-" "-") with true.
      cbn beta iota. rewrite mkq_opp. reflexivity.
Qed.

Lemma num_shape_chars w : num_shape w ->
  Forall (fun c => is_digit c = true \/ c = "-"%char \/ c = "/"%char) w.
Proof.
  assert (D : forall ds, Forall (fun c => is_digit c = true) ds ->
     Forall (fun c => is_digit c = true \/ c = "-"%char \/ c = "/"%char) ds).
  { intros ds. apply Forall_impl. auto. }
  intros S; destruct S as [sg d ds H1 H2 H3 | sg d ds q H1 H2 H3 H4];
    (apply Forall_app; split; [destruct H1 as [->| ->]; repeat constructor; auto|]);
    constructor; auto.
  apply Forall_app; split; auto.
Qed.
Lemma num_shape_first w : num_shape w -> exists c w', w = c :: w' /\ (is_digit c = true \/ c = "-"%char).
Proof.
  intros S; destruct S as [sg d ds [->| ->] H2 H3 | sg d ds q [->| ->] H2 H3 H4]; simpl; eauto 6.
Qed.
