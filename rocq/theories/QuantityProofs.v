(** Proofs about the parsing of measurable input. *)
From Verif Require Import PyBase PyLemmas QuantityModel QuantitySpec.
From Coq Require Import Lia.

Lemma item_ind2 (A : Type) (P : item A -> Prop) :
  (forall a, P (Num a)) -> (forall t, P (Str t)) -> (forall t, P (Uni t)) -> P Nothing -> P Other ->
  (forall l, P (Range l)) -> (forall l, Forall P l -> P (Seq l)) -> forall x, P x.
Proof.
  intros H1 H2 H3 H4 H5 H6 H7. fix IH 1. intros [a|t|t| | |l|l];
    [apply H1|apply H2|apply H3|apply H4|apply H5|apply H6|].
  apply H7. induction l as [|x l IHl]; constructor; [apply IH|exact IHl].
Qed.

Lemma last_or {T} (l : list T) : l = [] \/ exists k x, l = k ++ [x].
Proof. destruct l as [|x l] using rev_ind; [now left|right; now exists l, x]. Qed.
Lemma last_snoc {T} (l : list T) x d : last (l ++ [x]) d = x.
Proof. apply last_last. Qed.
Lemma removelast_snoc {T} (l : list T) x : removelast (l ++ [x]) = l.
Proof. apply removelast_last. Qed.

Section Proofs.
Variable A : Type.
Variable to_float : A -> result A.
Variable float_str : str -> option A.
Variable compare_one : item A -> option exn.
Set Default Proof Using "All".

Notation parse := (parse A to_float float_str compare_one).
Notation parse_rest := (parse_rest A compare_one).
Notation parse_strings := (parse_strings A to_float float_str compare_one).
Notation parse_list := (parse_list A to_float float_str compare_one).
Notation float_of := (float_of A to_float float_str).
Notation numeric := (numeric A to_float float_str).
Notation measures := (measures A to_float float_str compare_one).
Notation unit_text := (unit_text A compare_one).

Lemma parse_many l : 2 <= length l ->
  parse (Seq l) = if forallb (is_seq A) l then ps <- each A parse l ;; combine A ps else parse_list l.
Proof. destruct l as [|a [|b l]]; cbn [length]; try lia. reflexivity. Qed.

Lemma is_num_all (l : list (item A)) : forallb (is_num A) l = true <-> exists vs, l = map Num vs.
Proof.
  split.
  - induction l as [|x l IH]; cbn [forallb]; [now exists []|].
    intros H. apply andb_prop in H as [H1 H2]. destruct (IH H2) as [vs ->].
    destruct x; try discriminate. now exists (a :: vs).
  - intros [vs ->]. induction vs; auto.
Qed.
Lemma is_seq_all (l : list (item A)) : forallb (is_seq A) l = true <-> forall x, In x l -> exists k, x = Seq k.
Proof.
  rewrite forallb_forall. split; intros H x Hx; specialize (H x Hx).
  - destruct x; try discriminate. now eexists.
  - now destruct H as [k ->].
Qed.
Lemma is_unit_iff (x : item A) : is_unit A x = true <-> exists t, x = Str t \/ x = Uni t.
Proof.
  split; [destruct x; try discriminate; intros _; eauto|]. intros (t & [->| ->]); reflexivity.
Qed.
Lemma map_num_inj (a b : list A) : map (@Num A) a = map Num b -> a = b.
Proof.
  revert b; induction a as [|x a IH]; intros [|y b]; cbn [map]; intros H; try discriminate; auto.
  injection H as -> H. f_equal. auto.
Qed.
Lemma no_unit_nums (vs : list A) : existsb (is_unit A) (map Num vs) = false.
Proof. induction vs; auto. Qed.
Lemma count_nums p (vs : list A) : (forall a, p (Num a) = false) -> count A p (map Num vs) = 0.
Proof. intros H. unfold count. induction vs as [|v vs IH]; [reflexivity|]. cbn [map filter]. now rewrite H. Qed.
Lemma count_app p (a b : list (item A)) : count A p (a ++ b) = count A p a + count A p b.
Proof. unfold count. now rewrite filter_app, app_length. Qed.
Lemma nums_last (vs : list A) u k : map Num vs = k ++ [u] -> exists a, u = Num a.
Proof.
  intros E. destruct (last_or vs) as [->|(k' & x & ->)]; [destruct k; discriminate|].
  rewrite map_app in E. cbn [map] in E. apply app_inj_tail in E as [_ <-]. now eexists.
Qed.

(** ** The last part of the parser *)
Lemma rest_numbers vs : parse_rest (map Num vs) = Ok (map Num vs, s "1").
Proof.
  unfold QuantityModel.parse_rest.
  assert (forallb (is_num A) (map Num vs) = true) as -> by (apply is_num_all; now exists vs). reflexivity.
Qed.

Lemma rest_unit l u t : unit_text u t ->
  parse_rest (l ++ [u])
  = if forallb (is_num A) l then Ok (l, t)
    else match l with
         | Seq vs :: _ => Ok (vs, t)
         | Range vs :: _ => Ok (map Num vs, t)
         | _ => Raise ParsingTypeError
         end.
Proof.
  intros [Hu Hc]. unfold QuantityModel.parse_rest. rewrite last_snoc, removelast_snoc.
  assert (is_unit A u = true) as Uu by (apply is_unit_iff; eauto).
  assert (text A u = t) as Ut by (destruct Hu as [->| ->]; reflexivity).
  assert (forallb (is_num A) (l ++ [u]) = false) as ->.
  { destruct (forallb (is_num A) (l ++ [u])) eqn:F; [|reflexivity]. rewrite forallb_app in F.
    apply andb_prop in F as [_ F]. cbn [forallb] in F. now destruct Hu as [->| ->]. }
  assert (existsb (is_unit A) (l ++ [u]) = true) as -> by (rewrite existsb_app; cbn [existsb]; rewrite Uu; now destruct (existsb _ l)).
  assert (match (if match u with Str t0 => str_eqb t0 (s "1") | _ => false end then None else compare_one u) with
          | Some e => False | None => True end) as HC.
  { destruct Hc as [->|H]; [now rewrite str_eqb_refl|]. rewrite H. now destruct (match u with Str _ => _ | _ => _ end). }
  destruct (if match u with Str t0 => str_eqb t0 (s "1") | _ => false end then None else compare_one u); [contradiction|].
  rewrite Uu, Ut. destruct (forallb (is_num A) l); [reflexivity|].
  destruct l as [|h l]; [|reflexivity]. cbn. now destruct Hu as [->| ->].
Qed.

Lemma rest_ok l ys t : parse_rest l = Ok (ys, t) ->
  (exists vs, l = map Num vs /\ ys = map Num vs /\ t = s "1")
  \/ exists k u, l = k ++ [u] /\ unit_text u t
     /\ ((exists vs, k = map Num vs /\ ys = k)
         \/ (exists m, k = Seq ys :: m)
         \/ (exists vs m, k = Range vs :: m /\ ys = map Num vs)).
Proof.
  intros H. destruct (forallb (is_num A) l) eqn:F.
  { apply is_num_all in F as [vs ->]. rewrite rest_numbers in H. injection H as <- <-. left. now exists vs. }
  destruct (last_or l) as [->|(k & u & ->)]; [discriminate|]. right. exists k, u. split; [reflexivity|].
  unfold QuantityModel.parse_rest in H. rewrite F, last_snoc, removelast_snoc in H.
  destruct (is_unit A u) eqn:Uu.
  - assert (existsb (is_unit A) (k ++ [u]) = true) as Ex by (rewrite existsb_app; cbn [existsb]; rewrite Uu; now destruct (existsb _ k)).
    rewrite Ex in H. apply is_unit_iff in Uu as (t' & Hu).
    assert (text A u = t') as Ut by (destruct Hu as [->| ->]; reflexivity). rewrite Ut in H.
    destruct (if match u with Str t0 => str_eqb t0 (s "1") | _ => false end then None else compare_one u) eqn:C; [discriminate|].
    assert (u = Str (s "1") \/ compare_one u = None) as Hc.
    { destruct u; try (right; exact C). destruct (str_eqb t0 (s "1")) eqn:E; [|now right].
      apply str_eqb_eq in E as ->. now left. }
    assert (t' = t) as ->.
    { destruct (forallb (is_num A) k); [now injection H|]. destruct k as [|h k].
      - destruct Hu as [-> | ->]; discriminate.
      - destruct h; try discriminate; now injection H. }
    split; [now split|].
    destruct (forallb (is_num A) k) eqn:Fk.
    + apply is_num_all in Fk as [vs ->]. injection H as <-. left. now exists vs.
    + destruct k as [|h k]; [destruct Hu as [-> | ->]; discriminate|].
      destruct h; try discriminate; injection H as <-.
      * right; right. now exists l, k.
      * right; left. now exists k.
  - exfalso. destruct (existsb (is_unit A) (k ++ [u])); [|discriminate].
    destruct (if match u with Str t0 => str_eqb t0 (s "1") | _ => false end then None else compare_one u); discriminate.
Qed.

(** ** Strings *)
Lemma float_of_ok x a : float_of x = Ok a <-> numeric x a.
Proof.
  split.
  - destruct x; cbn; try discriminate; intros H; [left; eauto|].
    destruct (float_str t) eqn:E; [|discriminate]. injection H as <-. right; eauto.
  - intros [(b & -> & H)|(t & -> & H)]; cbn; [exact H|now rewrite H].
Qed.
Lemma floats_ok l vs : mapM float_of l = Ok vs <-> Forall2 numeric l vs.
Proof.
  revert vs; induction l as [|x l IH]; intros vs; cbn [mapM].
  - split; intros H; [injection H as <-; constructor|]. now inversion H.
  - split.
    + destruct (float_of x) as [a|] eqn:E; [|discriminate]. cbn [bind].
      destruct (mapM float_of l) as [ws|] eqn:E2; [|discriminate]. cbn [bind]. intros H; injection H as <-.
      constructor; [now apply float_of_ok|now apply IH].
    + intros H; inversion H; subst. apply float_of_ok in H2. rewrite H2. cbn [bind].
      apply IH in H4. now rewrite H4.
Qed.
Lemma mapM_snoc_value_error l x : mapM float_of l <> Raise ValueError ->
  mapM float_of (l ++ [x]) = Raise ValueError -> ((exists vs, mapM float_of l = Ok vs) /\ (exists t, x = Str t /\ float_str t = None))
  \/ exists a, x = Num a /\ to_float a = Raise ValueError.
Proof.
  induction l as [|y l IH]; cbn [mapM app].
  - intros _. destruct x; cbn; try discriminate.
    + destruct (to_float a) eqn:E; cbn; try discriminate. intros H; injection H as ->. right; eauto.
    + destruct (float_str t) eqn:E; cbn; try discriminate. intros _. left. split; eauto.
  - destruct (float_of y) as [v|]; cbn [bind]; [|now intros H].
    intros H1 H2. destruct (IH) as [[(vs & E) ?]|?].
    + intros E. rewrite E in H1. now apply H1.
    + destruct (mapM float_of (l ++ [x])); [discriminate|]. exact H2.
    + left. rewrite E. split; [now exists (v :: vs)|auto].
    + now right.
Qed.

Lemma count_str2 (l : list (item A)) : 1 < count A (is_str A) l <->
  exists a t b t' c, l = a ++ Str t :: b ++ Str t' :: c.
Proof.
  split.
  - intros H.
    assert (forall l, 0 < count A (is_str A) l -> exists a t b, l = a ++ Str t :: b /\ count A (is_str A) l = S (count A (is_str A) b)) as P.
    { clear. induction l as [|x l IH]; [cbn; lia|]. unfold count. cbn [filter].
      destruct (is_str A x) eqn:E.
      - intros _. destruct x; try discriminate. exists [], t, l. now split.
      - intros H. destruct (IH H) as (a & t & b & -> & Hc). exists (x :: a), t, b. now split. }
    destruct (P l) as (a & t & b & -> & Hc); [lia|]. rewrite Hc in H.
    destruct (P b) as (b1 & t' & c & -> & _); [lia|]. now exists a, t, b1, t', c.
  - intros (a & t & b & t' & c & ->). rewrite count_app. change (Str t :: b ++ Str t' :: c) with ([Str t] ++ b ++ [Str t'] ++ c).
    rewrite !count_app. unfold count at 2 4. cbn [filter is_str length]. lia.
Qed.
Lemma count_in p (l : list (item A)) x : In x l -> p x = true -> 0 < count A p l.
Proof.
  intros H P. apply in_split in H as (a & b & ->). rewrite count_app. unfold count at 2. cbn [filter]. rewrite P. cbn. lia.
Qed.
Lemma numeric_no_uni l vs : Forall2 numeric l vs -> count A (is_uni A) l = 0.
Proof.
  induction 1 as [|x v l vs H _ IH]; [reflexivity|]. unfold count. cbn [filter].
  destruct H as [(b & -> & _)|(t & -> & _)]; exact IH.
Qed.
Lemma numeric_not_seqs l vs : Forall2 numeric l vs -> l <> [] -> forall k, forallb (is_seq A) (l ++ k) = false.
Proof.
  intros H N k. destruct H as [|x v l vs H _]; [contradiction|].
  destruct H as [(b & -> & _)|(t & -> & _)]; reflexivity.
Qed.

(** ** Completeness: well-formed input is read as it is meant *)
Lemma each_map {B} (f : item A -> result B) xs ys : Forall2 (fun x y => f x = Ok y) xs ys -> each A f xs = Ok ys.
Proof. induction 1 as [|x y xs ys H _ IH]; cbn; [reflexivity|]. rewrite H. cbn. change ((fix go l := match l with [] => Ok [] | x0 :: l' => y0 <- f x0 ;; ys0 <- go l' ;; Ok (y0 :: ys0) end) xs) with (each A f xs). now rewrite IH. Qed.
Lemma each_ok {B} (f : item A -> result B) xs ys : each A f xs = Ok ys -> Forall2 (fun x y => f x = Ok y) xs ys.
Proof.
  revert ys; induction xs as [|x xs IH]; intros ys; cbn.
  - intros H; injection H as <-; constructor.
  - change ((fix go l := match l with [] => Ok [] | x0 :: l' => y0 <- f x0 ;; ys0 <- go l' ;; Ok (y0 :: ys0) end) xs) with (each A f xs).
    destruct (f x) eqn:E; [|discriminate]. cbn. destruct (each A f xs) eqn:E2; [|discriminate]. cbn.
    intros H; injection H as <-. constructor; auto.
Qed.

Lemma combine_same (pss : list (list (item A) * str)) t :
  pss <> [] -> Forall (fun p => snd p = t) pss -> combine A pss = Ok (concat (map fst pss), t).
Proof.
  intros N H. unfold combine. destruct pss as [|[vs u] pss]; [contradiction|].
  assert (u = t) as -> by now inversion H.
  replace (existsb _ _) with false; [reflexivity|]. symmetry. apply Bool.not_true_is_false. intros E.
  apply existsb_exists in E as (p & Hp & E). rewrite Forall_forall in H. rewrite (H p Hp), str_eqb_refl in E. discriminate.
Qed.

Lemma length_last1 {T} (a b : list T) : a <> [] -> b <> [] -> 2 <= length (a ++ b).
Proof. rewrite app_length. destruct a, b; cbn [length]; intros; try congruence; lia. Qed.

Theorem parse_measures : forall x vs t, measures x vs t -> parse x = Ok (map Num vs, t).
Proof.
  intros x. induction x as [a|t0|t0| | |l|l IH] using item_ind2; intros vs t H; try solve [inversion H].
  - inversion H; subst. reflexivity.
  - inversion H as [|tt a N E| | | | | | | | |]; subst. cbn. destruct t0; [contradiction|]. now rewrite E.
  - inversion H; subst. cbn. now destruct vs.
  - inversion H as [| | |x0 vs0 t1 Hx|vs0 Hl|vs0 u0 t1 Nv Hu|vs0 u0 t1 Hu|vs0 u0 t1 Hu|xs0 vs0 Hn Hs|xs0 vs0 t1 Hn Hs Hf Hu|xs0 vss t1 Hl Hq Hm]; subst; clear H.
    + cbn. inversion IH; subst. auto.
    + rewrite parse_many by (now rewrite map_length).
      destruct vs as [|v vs]; [cbn in *; lia|]. change (forallb (is_seq A) (map Num (v :: vs))) with false.
      unfold QuantityModel.parse_list. rewrite !count_nums by reflexivity. apply rest_numbers.
    + destruct vs as [|v vs]; [contradiction|].
      rewrite parse_many by (apply length_last1; discriminate).
      change (forallb (is_seq A) (map Num (v :: vs) ++ [u0])) with false. cbv iota.
      unfold QuantityModel.parse_list. rewrite !count_app, !count_nums by reflexivity.
      assert (count A (is_uni A) [u0] <= 1 /\ count A (is_str A) [u0] <= 1) as [C1 C2].
      { unfold count. cbn [filter]. destruct (is_uni A u0), (is_str A u0); cbn; lia. }
      destruct (Nat.ltb_spec 1 (0 + count A (is_uni A) [u0])); [lia|]. destruct (Nat.ltb_spec 1 (0 + count A (is_str A) [u0])); [lia|].
      rewrite (rest_unit _ _ _ Hu).
      replace (forallb (is_num A) (map Num (v :: vs))) with true by (symmetry; apply is_num_all; eauto). reflexivity.
    + rewrite parse_many by (cbn; lia).
      replace (forallb (is_seq A) [Seq (map Num vs); u0]) with false by (destruct Hu as [[-> | ->] _]; reflexivity).
      change [Seq (map Num vs); u0] with ([Seq (map Num vs)] ++ [u0]).
      unfold QuantityModel.parse_list. rewrite !count_app.
      assert (count A (is_uni A) [u0] <= 1 /\ count A (is_str A) [u0] <= 1) as [C1 C2].
      { unfold count. cbn [filter]. destruct (is_uni A u0), (is_str A u0); cbn; lia. }
      unfold count at 1. cbn [filter is_uni length]. unfold count at 2. cbn [filter is_str length].
      destruct (Nat.ltb_spec 1 (0 + count A (is_uni A) [u0])); [lia|]. destruct (Nat.ltb_spec 1 (0 + count A (is_str A) [u0])); [lia|].
      now rewrite (rest_unit _ _ _ Hu).
    + rewrite parse_many by (cbn; lia).
      change (forallb (is_seq A) [Range vs; u0]) with false.
      change [Range vs; u0] with ([Range vs] ++ [u0]).
      unfold QuantityModel.parse_list. rewrite !count_app.
      assert (count A (is_uni A) [u0] <= 1 /\ count A (is_str A) [u0] <= 1) as [C1 C2].
      { unfold count. cbn [filter]. destruct (is_uni A u0), (is_str A u0); cbn; lia. }
      unfold count at 1. cbn [filter is_uni length]. unfold count at 2. cbn [filter is_str length].
      destruct (Nat.ltb_spec 1 (0 + count A (is_uni A) [u0])); [lia|]. destruct (Nat.ltb_spec 1 (0 + count A (is_str A) [u0])); [lia|].
      now rewrite (rest_unit _ _ _ Hu).
    + apply count_str2 in Hs as Hc.
      assert (2 <= length l) as Hl. { destruct Hs as (a & t & b & t' & c & ->). rewrite app_length; cbn [length]; rewrite app_length; cbn [length]. lia. }
      rewrite parse_many by exact Hl.
      pose proof (numeric_not_seqs l vs Hn ltac:(destruct l; [cbn in Hl; lia|discriminate]) []) as N. rewrite app_nil_r in N. rewrite N.
      unfold QuantityModel.parse_list. rewrite (numeric_no_uni _ _ Hn). change (1 <? 0) with false. cbv iota.
      destruct (Nat.ltb_spec 1 (count A (is_str A) l)); [|lia].
      unfold QuantityModel.parse_strings. apply floats_ok in Hn. rewrite Hn. apply rest_numbers.
    + destruct Hs as [t' Ht'].
      assert (xs0 <> []) as Nx by (intros ->; inversion Ht').
      rewrite parse_many by (apply length_last1; [exact Nx|discriminate]).
      rewrite (numeric_not_seqs xs0 vs Hn Nx). unfold QuantityModel.parse_list. rewrite !count_app, (numeric_no_uni _ _ Hn).
      change (1 <? 0 + count A (is_uni A) [Str t]) with false. cbv iota.
      pose proof (count_in (is_str A) xs0 (Str t') Ht' eq_refl) as Cs. change (count A (is_str A) [Str t]) with 1.
      destruct (Nat.ltb_spec 1 (count A (is_str A) xs0 + 1)); [|lia].
      unfold QuantityModel.parse_strings. rewrite removelast_snoc, last_snoc.
      assert (mapM float_of (xs0 ++ [Str t]) = Raise ValueError) as ->.
      { clear - Hn Hf compare_one. induction Hn as [|x v xs0 vs H _ IH]; cbn [app mapM].
        - cbn. now rewrite Hf.
        - apply float_of_ok in H. rewrite H. cbn [bind]. now rewrite IH. }
      apply floats_ok in Hn. rewrite Hn. rewrite (rest_unit _ _ _ Hu).
      replace (forallb (is_num A) (map Num vs)) with true by (symmetry; apply is_num_all; eauto). reflexivity.
    + rewrite parse_many by assumption.
      replace (forallb (is_seq A) l) with true by (symmetry; now apply is_seq_all).
      assert (each A parse l = Ok (map (fun vs => (map Num vs, t)) vss)) as ->.
      { apply each_map. clear - Hm IH. revert vss Hm. induction IH as [|x l Hx _ IHl]; intros vss H; inversion H; subst; cbn [map]; constructor; auto. }
      cbn [bind]. rewrite combine_same with (t := t).
      * f_equal. f_equal. rewrite map_map. cbn [fst]. rewrite concat_map. f_equal.
      * inversion Hm; subst; [cbn in Hl; lia|discriminate].
      * apply Forall_forall. intros p Hp. apply in_map_iff in Hp as (? & <- & _). reflexivity.
Qed.

(** ** Mixed units *)
Lemma parse_mixed xs vss ts : 2 <= length xs -> (forall x, In x xs -> exists l, x = Seq l) ->
  Forall2 (fun x p => measures x (fst p) (snd p)) xs (List.combine vss ts) -> length vss = length ts ->
  (exists t t', In t ts /\ In t' ts /\ t <> t') -> parse (Seq xs) = Raise ParsingValueError.
Proof.
  intros L S M E (t & t' & Ht & Ht' & N). rewrite parse_many by exact L.
  replace (forallb (is_seq A) xs) with true by (symmetry; now apply is_seq_all).
  set (ps := List.combine vss ts) in *.
  assert (each A parse xs = Ok (map (fun p => (map Num (fst p), snd p)) ps)) as ->.
  { apply each_map. clear - M. induction M as [|x [vs u] xs ps H _ IH]; cbn [map]; constructor; auto.
    now apply parse_measures. }
  cbn [bind]. assert (map snd ps = ts) as Hts.
  { unfold ps. clear - E. revert ts E. induction vss; intros [|u ts] E; try discriminate; [reflexivity|].
    cbn. f_equal. apply IHvss. now injection E. }
  destruct ps as [|[v0 u0] ps]; [subst ts; now destruct Ht|]. cbn [map combine fst snd].
  replace (existsb _ _) with true; [reflexivity|]. symmetry. apply existsb_exists.
  assert (exists u, In u ts /\ u <> u0) as (u & Hu & Nu).
  { destruct (str_eqb t u0) eqn:Q; [|exists t; split; [exact Ht|now apply str_eqb_neq]].
    apply str_eqb_eq in Q as ->. exists t'. split; [exact Ht'|congruence]. }
  rewrite <- Hts in Hu. apply in_map_iff in Hu as (p & <- & Hp).
  exists (map Num (fst p), snd p). split.
  - apply (in_map (fun p => (map Num (fst p), snd p))) in Hp. exact Hp.
  - cbn [snd]. apply str_eqb_neq in Nu. now rewrite Nu.
Qed.

(** ** Input without numerical strings *)
Notation parse_pairs := (parse_pairs A to_float float_str compare_one).

Lemma plain_seqs l : plain A (Seq l) -> forallb (is_seq A) l = true -> Forall (plain A) l.
Proof.
  intros H F. inversion H as [? _ H2|? N _]; subst; [|now destruct (N l)]. apply H2. right. now apply is_seq_all.
Qed.
Lemma plain_one x : plain A (Seq [x]) -> plain A x.
Proof.
  intros H. inversion H as [? _ H2|? N _]; subst; [|now destruct (N [x])].
  assert (Forall (plain A) [x]) as F by (apply H2; now left). now inversion F.
Qed.
Lemma plain_count l : plain A (Seq l) -> count A (is_str A) l <= 1.
Proof.
  intros H. inversion H as [? H1 _|? N _]; subst; [|now destruct (N l)].
  destruct (last_or l) as [->|(k & u & ->)]; [cbn; lia|]. rewrite removelast_snoc in H1. rewrite count_app.
  assert (count A (is_str A) k = 0) as ->.
  { clear - H1. unfold count. induction k as [|y k IH]; [reflexivity|]. cbn [filter].
    destruct (is_str A y) eqn:Y.
    - destruct y; try discriminate. exfalso. exact (H1 (Str t) (or_introl eq_refl) t eq_refl).
    - apply IH. intros x Hx. apply H1. now right. }
  unfold count. cbn [filter]. destruct (is_str A u); cbn; lia.
Qed.

Lemma pairs_many l : 2 <= length l -> parse_pairs (Seq l)
  = if forallb (is_seq A) l then ps <- each A parse_pairs l ;; Ok (concat ps)
    else parse_list_pairs A to_float float_str compare_one l.
Proof. destruct l as [|a [|b l]]; cbn [length]; try lia. reflexivity. Qed.

Lemma pairs_list l p : plain A (Seq l) -> parse_list l = Ok p ->
  parse_list_pairs A to_float float_str compare_one l = Ok (wrap_pairs A p).
Proof.
  intros Pl. apply plain_count in Pl. unfold QuantityModel.parse_list, parse_list_pairs.
  destruct (1 <? count A (is_uni A) l); [discriminate|]. destruct (Nat.ltb_spec 1 (count A (is_str A) l)); [lia|].
  intros ->. reflexivity.
Qed.

Lemma pairs_measures : forall x vs t, plain A x -> measures x vs t ->
  parse_pairs x = Ok (map (fun v => Pair A (Num v) t) vs).
Proof.
  intros x. induction x as [a|t0|t0| | |l|l IH] using item_ind2; intros vs t Pl H.
  1-6: pose proof (parse_measures _ _ _ H) as E; unfold QuantityModel.parse_pairs; rewrite E; cbn [bind wrap_pairs fst snd];
    unfold wrap_pairs; cbn [fst snd]; now rewrite map_map.
  destruct (Nat.le_gt_cases 2 (length l)) as [L|L].
  - rewrite pairs_many by exact L. pose proof (parse_measures _ _ _ H) as E. rewrite parse_many in E by exact L.
    destruct (forallb (is_seq A) l) eqn:F.
    + pose proof (plain_seqs l Pl F) as Fp.
      assert (exists vss, Forall2 (fun x vs => measures x vs t) l vss /\ vs = concat vss) as (vss & M & ->).
      { inversion H as [| | |x0 vs0 t1 Hx|vs0 Hl|vs0 u0 t1 Nv Hu|vs0 u0 t1 Hu|vs0 u0 t1 Hu|xs0 vs0 Hn Hs|xs0 vs0 t1 Hn Hs Hf Hu|xs0 vss t1 Hl Hq Hm]; subst.
        - cbn in L; lia.
        - destruct vs; [cbn in L; lia|discriminate].
        - destruct vs; [contradiction|discriminate].
        - destruct Hu as [[-> | ->] _]; discriminate.
        - destruct Hu as [[-> | ->] _]; discriminate.
        - exfalso. pose proof (numeric_not_seqs l vs Hn ltac:(destruct l; [cbn in L; lia|discriminate]) []) as N.
          rewrite app_nil_r in N. congruence.
        - exfalso. destruct Hs as [t' Ht']. assert (xs0 <> []) as Nx by (intros ->; inversion Ht').
          pose proof (numeric_not_seqs xs0 vs Hn Nx [Str t]). congruence.
        - now exists vss. }
      assert (each A parse_pairs l = Ok (map (map (fun v => Pair A (Num v) t)) vss)) as ->.
      { apply each_map. clear - M IH Fp. revert vss M. induction l as [|x l IHl]; intros vss M; inversion M; inversion IH; inversion Fp; subst; cbn [map]; constructor; auto. }
      cbn [bind]. f_equal. symmetry. apply concat_map.
    + rewrite (pairs_list l _ Pl E). f_equal. unfold wrap_pairs. cbn [fst snd]. now rewrite map_map.
  - destruct l as [|x [|y l]]; [inversion H; subst| |cbn in L; lia].
    + destruct vs; [cbn in *; lia|discriminate].
    + destruct vs; discriminate.
    + match goal with K : exists _, _ |- _ => destruct K as (a & ? & ? & ? & ? & K); destruct a; discriminate end.
    + destruct xs; discriminate.
    + cbn in *; lia.
    + cbn. inversion IH; subst. apply plain_one in Pl.
      inversion H as [| | |x0 vs0 t1 Hx|vs0 Hl|vs0 u0 t1 Nv Hu|vs0 u0 t1 Hu|vs0 u0 t1 Hu|xs0 vs0 Hn Hs|xs0 vs0 t1 Hn Hs Hf Hu|xs0 vss t1 Hl Hq Hm]; subst; auto.
      * destruct vs as [|v [|]]; cbn in *; try lia; discriminate.
      * destruct vs as [|v [|]]; [contradiction| |]; discriminate.
      * destruct Hs as (a & t1 & b & t' & c & K). destruct a as [|? [|]]; try discriminate. destruct b; discriminate.
      * destruct Hs as [t' Ht']. destruct xs0 as [|? [|]]; [inversion Ht'| |]; discriminate.
      * cbn in Hl. lia.
Qed.

(** ** [ismeasurable] *)
Notation measurable_args := (is_measurable_args A).

Lemma args_many l : 2 <= length l -> measurable_args (Seq l)
  = if forallb (is_num A) l then true
    else if is_unit A (last l Nothing)
            && match l with
               | Seq vs :: _ => forallb (is_num A) vs
               | Range _ :: _ => true
               | Str [] :: _ => true
               | Str _ :: _ | Uni _ :: _ => false
               | _ => forallb (is_num A) (removelast l)
               end then true
    else forallb (fun i => is_seq A i && negb (match i with Seq [] => true | _ => false end) && measurable_args i) l.
Proof. destruct l as [|a [|b l]]; cbn [length]; try lia. reflexivity. Qed.

Lemma args_complete : forall x vs t, plain A x -> measures x vs t -> measurable_args x = true.
Proof.
  intros x. induction x as [a|t0|t0| | |l|l IH] using item_ind2; intros vs t Pl H; try solve [inversion H]; try reflexivity.
  - inversion Pl as [|? _ N]; subst. now destruct (N t0).
  - inversion H as [| | |x0 vs0 t1 Hx|vs0 Hl|vs0 u0 t1 Nv Hu|vs0 u0 t1 Hu|vs0 u0 t1 Hu|xs0 vs0 Hn Hs|xs0 vs0 t1 Hn Hs Hf Hu|xs0 vss t1 Hl Hq Hm]; subst.
    + inversion IH; subst. cbn. apply plain_one in Pl. eauto.
    + rewrite args_many by (now rewrite map_length).
      replace (forallb (is_num A) (map Num vs)) with true by (symmetry; apply is_num_all; eauto). reflexivity.
    + destruct vs as [|v vs]; [contradiction|]. rewrite args_many by (apply length_last1; discriminate).
      rewrite last_snoc, removelast_snoc.
      replace (is_unit A u0) with true by (destruct Hu as [[-> | ->] _]; reflexivity).
      replace (forallb (is_num A) (map Num (v :: vs))) with true by (symmetry; apply is_num_all; eauto).
      cbn [map app]. now destruct (forallb (is_num A) _).
    + rewrite args_many by (cbn; lia). cbn [last forallb is_num].
      replace (is_unit A u0) with true by (destruct Hu as [[-> | ->] _]; reflexivity).
      replace (forallb (is_num A) (map Num vs)) with true by (symmetry; apply is_num_all; eauto). reflexivity.
    + rewrite args_many by (cbn; lia). cbn [last forallb is_num].
      replace (is_unit A u0) with true by (destruct Hu as [[-> | ->] _]; reflexivity). reflexivity.
    + exfalso. apply plain_count in Pl. apply count_str2 in Hs. lia.
    + exfalso. apply plain_count in Pl. destruct Hs as [t' Ht']. pose proof (count_in (is_str A) xs0 (Str t') Ht' eq_refl).
      rewrite count_app in Pl. change (count A (is_str A) [Str t]) with 1 in Pl. lia.
    + rewrite args_many by exact Hl.
      pose proof (plain_seqs l Pl (proj2 (is_seq_all l) Hq)) as Fp.
      assert (forallb (fun i => is_seq A i && negb (match i with Seq [] => true | _ => false end) && measurable_args i) l = true) as ->.
      { clear Hl Pl H. revert vss Hm. induction l as [|x l IHl]; intros vss M; [reflexivity|].
        inversion M; inversion IH; inversion Fp; subst. cbn [forallb]. destruct (Hq x (or_introl eq_refl)) as [k ->].
        rewrite (H6 y t H10 H1). replace (negb match Seq k with Seq [] => true | _ => false end) with true.
        - cbn [is_seq andb]. eapply IHl; eauto. intros z Hz. apply Hq. now right.
        - destruct k; [|reflexivity]. exfalso. apply parse_measures in H1. discriminate. }
      destruct (forallb (is_num A) l); [reflexivity|]. now destruct (is_unit A (last l Nothing) && _).
Qed.

Lemma args_sound : forall x, plain A x -> measurable_args x = true ->
  (exists p, parse x = Ok p) \/ parse x = Raise ParsingValueError
  \/ exists u e, compare_one u = Some e /\ parse x = Raise e.
Proof.
  intros x. induction x as [a|t0|t0| | |l|l IH] using item_ind2; intros Pl H; try discriminate.
  - left. eexists. reflexivity.
  - destruct l; [right; left; reflexivity|]. left. eexists. reflexivity.
  - destruct (Nat.le_gt_cases 2 (length l)) as [L|L].
    + rewrite parse_many by exact L. rewrite args_many in H by exact L.
      destruct (forallb (is_seq A) l) eqn:F.
      * pose proof (plain_seqs l Pl F) as Fp. rewrite forallb_forall in F.
        assert (forallb (is_num A) l = false) as N.
        { destruct l as [|y l]; [cbn in L; lia|]. specialize (F y (or_introl eq_refl)). now destruct y. }
        rewrite N in H.
        assert (is_unit A (last l Nothing) = false) as Nu.
        { destruct (last_or l) as [->|(k & u & ->)]; [reflexivity|]. rewrite last_snoc.
          specialize (F u). destruct u; try reflexivity; (assert (false = true) by (apply F, in_or_app; right; now left); discriminate). }
        rewrite Nu in H. cbn [andb] in H. rewrite forallb_forall in H.
        assert ((exists ps, each A parse l = Ok ps) \/ each A parse l = Raise ParsingValueError
                \/ exists u e, compare_one u = Some e /\ each A parse l = Raise e) as Q.
        { clear - IH Fp H. induction l as [|y l IHl]; [left; now exists []|].
          inversion IH; inversion Fp; subst.
          assert (measurable_args y = true) as My by (specialize (H y (or_introl eq_refl)); apply andb_prop in H; apply H).
          destruct IHl as [(ps & E)|[E|(u & e & C & E)]]; [assumption|intros z Hz; apply H; now right|assumption| | |];
            destruct (H2 H6 My) as [(p & Ep)|[Ep|(u' & e' & C' & Ep)]]; cbn [each]; cbn; rewrite Ep; cbn [bind];
            try (right; left; reflexivity); try (right; right; now exists u', e');
            change ((fix go l := match l with [] => Ok [] | x0 :: l' => y0 <- parse x0 ;; ys0 <- go l' ;; Ok (y0 :: ys0) end) l) with (each A parse l);
            rewrite E; cbn [bind].
          - left. eexists; reflexivity.
          - right; left; reflexivity.
          - right; right. now exists u, e. }
        destruct Q as [(ps & E)|[E|(u & e & C & E)]]; rewrite E; cbn [bind].
        -- unfold combine. destruct ps as [|[v u] ps].
           { exfalso. apply each_ok in E. inversion E; subst. cbn in L; lia. }
           destruct (existsb _ _); [right; left; reflexivity|left; eexists; reflexivity].
        -- right; left; reflexivity.
        -- right; right. now exists u, e.
      * unfold QuantityModel.parse_list. apply plain_count in Pl as Cs.
        destruct (1 <? count A (is_uni A) l); [right; left; reflexivity|].
        destruct (Nat.ltb_spec 1 (count A (is_str A) l)); [lia|].
        unfold QuantityModel.parse_rest. destruct (forallb (is_num A) l) eqn:N; [left; eexists; reflexivity|].
        destruct (is_unit A (last l Nothing)) eqn:U.
        -- assert (existsb (is_unit A) l = true) as ->.
           { apply existsb_exists. exists (last l Nothing). split; [|exact U].
             destruct (last_or l) as [->|(k & u & ->)]; [cbn in L; lia|]. rewrite last_snoc. apply in_or_app. right; now left. }
           destruct (if match last l Nothing with Str t => str_eqb t (s "1") | _ => false end then None else compare_one (last l Nothing)) eqn:C.
           { right; right. exists (last l Nothing), e. split; [|reflexivity].
             destruct (match last l Nothing with Str t => str_eqb t (s "1") | _ => false end); [discriminate|exact C]. }
           left. destruct (forallb (is_num A) (removelast l)) eqn:NR; [eexists; reflexivity|].
           cbn [andb] in H.
           assert (forallb (fun i => is_seq A i && negb (match i with Seq [] => true | _ => false end) && measurable_args i) l = false) as FB.
           { apply Bool.not_true_is_false. intros X. rewrite forallb_forall in X.
             assert (forallb (is_seq A) l = true); [|congruence]. apply forallb_forall. intros y Hy. specialize (X y Hy).
             apply andb_prop in X as [X _]. apply andb_prop in X as [X _]. exact X. }
           rewrite FB in H.
           destruct l as [|h l]; [discriminate|]. destruct h; try (eexists; reflexivity); try discriminate.
           destruct t; [|discriminate]. exfalso. inversion Pl as [? P1 _|? Nl _]; subst; [|now destruct (Nl (Str [] :: l))].
           destruct l as [|b l]; [cbn in L; lia|]. apply (P1 (Str []) (or_introl eq_refl) [] eq_refl).
        -- exfalso. cbn [andb] in H. rewrite forallb_forall in H.
           assert (forallb (is_seq A) l = true); [|congruence]. apply forallb_forall. intros y Hy. specialize (H y Hy).
           apply andb_prop in H as [H _]. apply andb_prop in H as [H _]. exact H.
    + destruct l as [|x [|y l]]; [right; left; reflexivity| |cbn in L; lia].
      cbn in *. inversion IH; subst. apply plain_one in Pl. auto.
Qed.

(** ** Soundness: what is accepted is what it means *)
Hypothesis to_float_err : forall a, to_float a <> Raise ValueError.

Theorem parse_sound : forall x ys t, regular A x -> parse x = Ok (ys, t) ->
  exists vs, ys = map Num vs /\ measures x vs t.
Proof.
  intros x. induction x as [a|t0|t0| | |l|l IH] using item_ind2; intros ys t R H; try discriminate.
  - injection H as <- <-. exists [a]. split; [reflexivity|constructor].
  - cbn in H. destruct t0; [discriminate|]. destruct (float_str (a :: t0)) eqn:E; [|discriminate].
    injection H as <- <-. exists [a0]. split; [reflexivity|]. constructor; [discriminate|exact E].
  - cbn in H. destruct l; [discriminate|]. injection H as <- <-. exists (a :: l). split; [reflexivity|]. now constructor.
  - inversion R as [l0 Hh Hr|]; subst; [|exfalso; now apply (H0 l)].
    destruct l as [|x [|x2 l]]; [discriminate| |].
    + cbn in H. inversion IH; subst. destruct (H2 ys t) as (vs & -> & M); [|exact H|].
      * destruct x; try (apply R_other; discriminate).
        assert (Forall (regular A) [Seq l]) as F by (apply Hr; intros y [<-|[]]; eauto). now inversion F.
      * exists vs. split; [reflexivity|now constructor].
    + remember (x :: x2 :: l) as L eqn:EL.
      assert (2 <= length L) as HL by (subst L; cbn; lia). clear EL x x2 l.
      rewrite parse_many in H by exact HL.
      destruct (forallb (is_seq A) L) eqn:FS.
      { pose proof (proj1 (is_seq_all L) FS) as FS'. specialize (Hr FS').
        destruct (each A parse L) as [ps|] eqn:E; [|discriminate]. cbn [bind] in H. apply each_ok in E.
        unfold combine in H. destruct ps as [|[v0 u] ps]; [discriminate|].
        destruct (existsb _ _) eqn:X; [discriminate|]. injection H as Hy <-.
        assert (forall p, In p ((v0, u) :: ps) -> snd p = u) as Hu.
        { intros p Hp. destruct (str_eqb (snd p) u) eqn:Q; [now apply str_eqb_eq|]. exfalso.
          assert (existsb (fun p => negb (str_eqb (snd p) u)) ((v0, u) :: ps) = true) as Y by (apply existsb_exists; exists p; split; [exact Hp|now rewrite Q]).
          congruence. }
        change (v0 ++ concat (map fst ps)) with (concat (map fst ((v0, u) :: ps))) in Hy.
        remember ((v0, u) :: ps) as qs. clear Heqqs v0 ps X.
        assert (exists vss, Forall2 (fun x vs => measures x vs u) L vss /\ map fst qs = map (map Num) vss) as (vss & M & Ef).
        { clear - IH Hr E Hu. revert qs E Hu. induction L as [|x L IHL]; intros qs E Hu; inversion E; subst.
          - exists []. split; [constructor|reflexivity].
          - inversion IH; inversion Hr; subst. destruct (IHL H4 H8 l') as (vss & M & Ef).
            + assumption.
            + intros p Hp; apply Hu; now right.
            + destruct y as [ys u']. assert (u' = u) as -> by (apply (Hu (ys, u')); now left).
              destruct (H2 ys u H7 H1) as (vs & -> & Mx). exists (vs :: vss). split; [now constructor|].
              cbn [map fst]. now rewrite Ef. }
        exists (concat vss). split.
        - rewrite <- Hy, Ef. now rewrite <- concat_map.
        - apply M_many; auto. }
      unfold QuantityModel.parse_list in H.
      destruct (Nat.ltb_spec 1 (count A (is_uni A) L)) as [|Cu]; [discriminate|].
      destruct (Nat.ltb_spec 1 (count A (is_str A) L)) as [Cs|Cs].
      * apply count_str2 in Cs as Cs'. unfold QuantityModel.parse_strings in H.
        destruct (mapM float_of L) as [vs|e] eqn:E.
        { rewrite rest_numbers in H. injection H as <- <-. exists vs. split; [reflexivity|].
          apply M_strings; [now apply floats_ok|exact Cs']. }
        destruct e; try discriminate.
        destruct (last_or L) as [->|(k & u & ->)]; [discriminate|].
        rewrite removelast_snoc, last_snoc in H.
        destruct (mapM float_of k) as [vs|e] eqn:Ek; [|destruct e; discriminate].
        destruct (mapM_snoc_value_error k u ltac:(rewrite Ek; discriminate) E) as [(_ & (t' & -> & Ht'))|(a & _ & Ha)];
          [|now apply to_float_err in Ha].
        apply rest_ok in H as [(ws & E1 & _)|(k' & u & E1 & Hu & Hk)].
        { exfalso. symmetry in E1. apply nums_last in E1 as [a Ha]. discriminate. }
        apply app_inj_tail in E1 as [<- <-].
        assert (t' = t) as -> by (destruct Hu as [[Q|Q] _]; [now injection Q|discriminate]).
        assert (ys = map Num vs) as ->.
        { destruct Hk as [(ws & E1 & ->)|[(m & E1)|(ws & m & E1 & _)]]; auto;
            destruct vs; try discriminate; cbn in E1; discriminate. }
        exists vs. split; [reflexivity|]. apply M_strings_unit; auto.
        { now apply floats_ok. }
        rewrite count_app in Cs. change (count A (is_str A) [Str t]) with 1 in Cs.
        destruct (existsb (is_str A) k) eqn:X.
        { apply existsb_exists in X as (y & Hy & Y). destruct y; try discriminate. eauto. }
        exfalso. assert (count A (is_str A) k = 0); [|lia]. unfold count. clear - X. induction k as [|y k IHk]; [reflexivity|].
        cbn [existsb filter] in *. apply orb_false_elim in X as [-> X]. auto.
      * apply rest_ok in H as [(vs & -> & -> & ->)|(k & u & -> & Hu & Hk)].
        { exists vs. split; [reflexivity|]. apply M_numbers. now rewrite map_length in HL. }
        assert (exists t0, u = Str t0 \/ u = Uni t0) as Hut by (destruct Hu as [? _]; eauto).
        destruct Hk as [(vs & -> & ->)|[(m & ->)|(vs & m & -> & ->)]].
        -- exists vs. split; [reflexivity|]. apply M_numbers_unit; [|exact Hu].
           intros ->. cbn in HL. lia.
        -- destruct (Hh (Seq ys) m u eq_refl Hut) as [Q _]. destruct (Q ys eq_refl) as [-> Hn].
           assert (exists vs, ys = map Num vs) as [vs ->].
           { apply is_num_all. apply forallb_forall. intros v Hv. destruct (Hn v Hv) as [a ->]. reflexivity. }
           exists vs. split; [reflexivity|]. now apply M_list_unit.
        -- destruct (Hh (Range vs) m u eq_refl Hut) as [_ Q]. rewrite (Q vs eq_refl).
           exists vs. split; [reflexivity|]. now apply M_range_unit.
Qed.
End Proofs.
