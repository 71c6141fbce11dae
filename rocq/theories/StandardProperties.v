(** * C75: unit texts of EPREM output *)
From Verif Require Import PyBase PyLemmas SymbolicModel SymbolicSpec SymbolicProofs SymbolicParse SymbolicRoundTrip StandardModel MetricTables SystemsProperties.
From Coq Require Import Lia.

(** ** texts *)
Definition has_slash (x : str) : Prop := In "/"%char x.
(** the keys of the table of non-standard units *)
Definition is_nonstandard (x : str) : Prop :=
  In x [s "julian date"; s "shell"; s "cos(mu)"; s "e-"; s "# / cm^2 s sr MeV"].

Lemma get_or_default l k : ~ In k (map fst l) -> get_or l k k = k.
Proof.
  induction l as [|(a, b) l IH]; intros H; [reflexivity|]. cbn [get_or]. rewrite (proj2 (str_eqb_neq a k)).
  - apply IH. intros I. apply H. right. exact I.
  - intros E. apply H. left. exact E.
Qed.
Lemma not_in_table x : ~ is_nonstandard x -> get_or NONSTANDARD x x = x.
Proof. intros H. apply get_or_default. exact H. Qed.
Lemma split_none x : ~ has_slash x -> split_slash x = None.
Proof.
  induction x as [|c x IH]; intros H; [reflexivity|]. cbn [split_slash].
  destruct (Ascii.eqb_spec c "/") as [E|_]; [exfalso; apply H; left; exact E|].
  rewrite IH; [reflexivity|]. intros I. apply H. right. exact I.
Qed.
Lemma split_first a b : ~ has_slash a -> split_slash (a ++ "/"%char :: b) = Some (a, b).
Proof.
  induction a as [|c a IH]; intros H; [reflexivity|]. cbn [app split_slash].
  destruct (Ascii.eqb_spec c "/") as [E|_]; [exfalso; apply H; left; exact E|].
  rewrite IH; [reflexivity|]. intros I. apply H. right. exact I.
Qed.
Lemma blanks_rev n : rev (blanks n) = blanks n.
Proof.
  unfold blanks. induction n as [|n IH]; [reflexivity|]. cbn [repeat rev]. rewrite IH.
  clear IH. induction n as [|n IH]; [reflexivity|]. cbn [repeat app]. rewrite IH. reflexivity.
Qed.
Lemma blanks_slash n : ~ has_slash (blanks n).
Proof. intros H. apply repeat_spec in H. discriminate H. Qed.
Lemma strip_around i j x : good_first x -> good_last x -> strip (blanks i ++ x ++ blanks j) = x.
Proof.
  intros F L. unfold strip.
  assert (F' : good_first (x ++ blanks j)). { destruct F as (c & y & -> & H). exists c, (y ++ blanks j). split; [reflexivity|exact H]. }
  rewrite (lstrip_blanks i _ F'). unfold rstrip. rewrite rev_app_distr, blanks_rev.
  assert (G : good_first (rev x)). { destruct L as (y & c & -> & H). exists c, (rev y). rewrite rev_app_distr. split; [reflexivity|exact H]. }
  rewrite (lstrip_blanks j _ G). apply rev_involutive.
Qed.
Lemma good_written x int : written_ok int x = true -> good_first (written_text x) /\ good_last (written_text x).
Proof.
  intros H. split; [|exact (written_last x int H)].
  destruct (written_first x int H) as (c & w & E & P). exists c, w. split; [exact E|]. apply plain_not_space, P.
Qed.

(** [n] divided by the group of [d] *)
Fixpoint over_group (n d : written) : written :=
  match n with
  | WOne f => WMore f (Over 1 1) (WOne (FGroup d 1%Qc))
  | WMore f o r => WMore f o (over_group r d)
  end.
Lemma over_text n d : written_text (over_group n d) = written_text n ++ s " / " ++ s "(" ++ written_text d ++ s ")".
Proof.
  induction n as [f|f o r IH]; cbn [over_group written_text].
  - cbn [factor_text sep_text]. unfold power_text. rewrite (proj2 (qc_eqb_eq 1 1) eq_refl). reflexivity.
  - rewrite IH. rewrite <- !app_assoc. reflexivity.
Qed.
Lemma over_head n d : head_factor (over_group n d) = head_factor n.
Proof. destruct n; reflexivity. Qed.
Lemma over_ok n d : written_ok true n = true -> written_ok true d = true -> written_ok true (over_group n d) = true.
Proof.
  intros N D. induction n as [f|f o r IH]; cbn [over_group written_ok] in *.
  - rewrite N. cbn [factor_ok sep_ok head_factor starts_number andb]. change (q_isint 1%Qc) with true. rewrite D. reflexivity.
  - rewrite !andb_true_iff in N. destruct N as ((A & B) & C). rewrite A, over_head, B, (IH C). reflexivity.
Qed.
Lemma over_expo n d b inv : written_expo b inv (over_group n d) = (written_expo b inv n - written_expo b false d)%Qc.
Proof.
  revert inv. induction n as [f|f o r IH]; intros inv; cbn [over_group written_expo].
  - cbn [is_over signed factor_expo]. ring.
  - rewrite IH. ring.
Qed.
Lemma over_coef n d inv : written_coef inv (over_group n d) = (written_coef inv n / written_coef false d)%Qc.
Proof.
  revert inv. induction n as [f|f o r IH]; intros inv; cbn [over_group written_coef].
  - cbn [is_over inverted factor_coef]. change (qnum 1%Qc) with 1%Z. rewrite qpowz_1_r. reflexivity.
  - rewrite IH. unfold Qcdiv. ring.
Qed.

Section Meaning.
Variable libm : Qc -> Qc -> option Qc.
Set Default Proof Using "Type".

(** The five non-standard units of EPREM files. *)
Theorem C75_table :
  standardize (Some (s "julian date")) = Ok (s "day") /\ standardize (Some (s "shell")) = Ok (s "1") /\
  standardize (Some (s "cos(mu)")) = Ok (s "1") /\ standardize (Some (s "e-")) = Ok (s "e") /\
  standardize (Some (s "# / cm^2 s sr MeV")) = Ok (s "# / (cm^2 s sr MeV/nuc)").
Proof. repeat split; reflexivity. Qed.

(** Other texts without a slash stay as they are. *)
Theorem C75_unchanged (x : str) : ~ is_nonstandard x -> ~ has_slash x -> standardize (Some x) = Ok x.
Proof. intros T H. unfold standardize. rewrite (not_in_table x T), (split_none x H). reflexivity. Qed.

(** Everything after the first slash belongs to the denominator: the result is
    the text of the numerator, " / " and the rest in parentheses, and its
    meaning is the numerator divided by all of the rest. *)
Theorem C75_denominator (n d : written) (h i j k : nat) :
  let x := blanks h ++ written_text n ++ blanks i ++ "/"%char :: blanks j ++ written_text d ++ blanks k in
  written_ok true n = true -> written_ok true d = true -> ~ has_slash (written_text n) -> ~ is_nonstandard x ->
  exists y r, standardize (Some x) = Ok y /\ y = written_text n ++ s " / (" ++ written_text d ++ s ")" /\
    expression_of_str libm y = Ok r /\ canonical r /\
    mono_coef r = (written_coef false n / written_coef false d)%Qc /\
    forall b, b <> one_base -> mono_expo b r = (written_expo b false n - written_expo b false d)%Qc.
Proof.
  intros x N D H T.
  destruct (expression_meaning libm (over_group n d) (over_ok n d N D)) as (r & E & C & M & X).
  exists (written_text n ++ s " / (" ++ written_text d ++ s ")"), r.
  assert (Y : written_text n ++ s " / (" ++ written_text d ++ s ")" = written_text (over_group n d)) by (rewrite over_text; reflexivity).
  split; [|split; [reflexivity|split; [rewrite Y; exact E|split; [exact C|split]]]].
  - unfold standardize. rewrite (not_in_table x T). unfold x.
    replace (blanks h ++ written_text n ++ blanks i ++ "/"%char :: blanks j ++ written_text d ++ blanks k)
      with ((blanks h ++ written_text n ++ blanks i) ++ "/"%char :: blanks j ++ written_text d ++ blanks k) by (rewrite <- !app_assoc; reflexivity).
    rewrite split_first.
    + destruct (good_written n true N) as (F1 & L1). destruct (good_written d true D) as (F2 & L2).
      rewrite (strip_around h i _ F1 L1), (strip_around j k _ F2 L2). reflexivity.
    + intros I. unfold has_slash in I. rewrite !in_app_iff in I. destruct I as [I|[I|I]]; [exact (blanks_slash _ I)|exact (H I)|exact (blanks_slash _ I)].
  - rewrite M. apply over_coef.
  - intros b Hb. rewrite (X b Hb). apply over_expo.
Qed.

(** Standardizing twice means the same as standardizing once. *)
Lemma closed_not_nonstandard a b : ~ is_nonstandard (a ++ s " / (" ++ b ++ s ")").
Proof.
  intros H. assert (L : forall z c, last (z ++ [c]) "0"%char = c). { intros z c. apply last_last. }
  replace (a ++ s " / (" ++ b ++ s ")") with ((a ++ s " / (" ++ b) ++ [")"%char]) in H by (rewrite <- !app_assoc; reflexivity).
  assert (S : In "/"%char ((a ++ s " / (" ++ b) ++ [")"%char])). { rewrite !in_app_iff. left. right. left. right. left. reflexivity. }
  unfold is_nonstandard in H. cbn [In] in H.
  repeat (destruct H as [H|H]; [pose proof (L (a ++ s " / (" ++ b) ")"%char) as E; rewrite <- H in E, S; cbn in E, S; solve [discriminate E | intuition discriminate]|]). exact H.
Qed.
Theorem C75_twice (n d : written) (h i j k : nat) :
  let x := blanks h ++ written_text n ++ blanks i ++ "/"%char :: blanks j ++ written_text d ++ blanks k in
  written_ok true n = true -> written_ok true d = true -> ~ has_slash (written_text n) -> ~ is_nonstandard x ->
  exists y z r, standardize (Some x) = Ok y /\ standardize (Some y) = Ok z /\
    expression_of_str libm y = Ok r /\ expression_of_str libm z = Ok r.
Proof.
  intros x N D H T. destruct (C75_denominator n d h i j k N D H T) as (y & r & Y & E & R & C & M & X).
  pose (g := WOne (FGroup d 1%Qc)).
  assert (G : written_ok true g = true). { unfold g. cbn [written_ok factor_ok]. cbn. exact D. }
  assert (TG : written_text g = s "(" ++ written_text d ++ s ")").
  { unfold g. cbn [written_text factor_text]. unfold power_text. rewrite (proj2 (qc_eqb_eq 1 1) eq_refl). reflexivity. }
  assert (EY : blanks 0 ++ written_text n ++ blanks 1 ++ "/"%char :: blanks 1 ++ written_text g ++ blanks 0 = y).
  { rewrite E, TG. cbn [blanks repeat app]. rewrite app_nil_r. reflexivity. }
  destruct (C75_denominator n g 0 1 1 0 N G H) as (z & r' & Z & _ & R' & C' & M' & X').
  { rewrite EY, E. apply closed_not_nonstandard. }
  rewrite EY in Z. exists y, z, r. split; [exact Y|]. split; [exact Z|]. split; [exact R|]. rewrite R'. f_equal.
  apply canonical_eq; [exact C'|exact C|]. split.
  - rewrite M, M'. unfold g. cbn [written_coef inverted factor_coef]. change (qnum 1%Qc) with 1%Z. rewrite qpowz_1_r. reflexivity.
  - intros b Hb. rewrite (X b Hb), (X' b Hb). unfold g. cbn [written_expo signed factor_expo]. ring.
Qed.
End Meaning.

Print Assumptions C75_table.
Print Assumptions C75_unchanged.
Print Assumptions C75_denominator.
Print Assumptions C75_twice.

(** "s^3/km^6": the unit of distributions in EPREM files; "km / s", and a flux
    with three factors after the slash. *)
Definition w_cube : written := WOne (FVar (s "s") (zq 3)).
Definition w_km6 : written := WOne (FVar (s "km") (zq 6)).
Definition w_count : written := WOne (FVar (s "#") 1%Qc).
Definition w_three : written := WMore (FVar (s "cm") (zq 2)) (Blank 0) (WMore (FVar (s "s") 1%Qc) (Blank 0) (WOne (FVar (s "sr") 1%Qc))).
Lemma slash_free x : forallb (fun c => negb (Ascii.eqb c "/")) x = true -> ~ has_slash x.
Proof. intros H I. rewrite forallb_forall in H. specialize (H _ I). discriminate H. Qed.
Lemma other_text x : existsb (str_eqb x) [s "julian date"; s "shell"; s "cos(mu)"; s "e-"; s "# / cm^2 s sr MeV"] = false -> ~ is_nonstandard x.
Proof.
  intros H I. enough (E : existsb (str_eqb x) [s "julian date"; s "shell"; s "cos(mu)"; s "e-"; s "# / cm^2 s sr MeV"] = true) by (rewrite E in H; discriminate H).
  apply existsb_exists. exists x. split; [exact I|apply str_eqb_refl].
Qed.
Example C75_case libm :
  standardize (Some (s "s^3/km^6")) = Ok (s "s^3 / (km^6)") /\ standardize (Some (s "km")) = Ok (s "km") /\
  exists r, standardize (Some (s "# / cm^2 s sr")) = Ok (s "# / (cm^2 s sr)") /\
    expression_of_str libm (s "# / (cm^2 s sr)") = Ok r /\ mono_expo (s "cm") r = zq (-2) /\ mono_expo (s "s") r = zq (-1) /\
    mono_expo (s "sr") r = zq (-1) /\ mono_expo (s "#") r = zq 1.
Proof.
  split; [reflexivity|]. split; [apply C75_unchanged; [apply other_text; reflexivity|apply slash_free; reflexivity]|].
  destruct (C75_denominator libm w_count w_three 0 1 1 0) as (y & r & Y & E & R & C & _ & X);
    [reflexivity|reflexivity|apply slash_free; reflexivity|apply other_text; reflexivity|].
  exists r. change (Some (s "# / cm^2 s sr")) with (Some (blanks 0 ++ written_text w_count ++ blanks 1 ++ "/"%char :: blanks 1 ++ written_text w_three ++ blanks 0)).
  rewrite E in Y, R. split; [exact Y|]. split; [exact R|].
  rewrite !X by discriminate. repeat split; apply Qc_is_canon; reflexivity.
Qed.

(** The units the table gives: a day, a number, the elementary charge, and the
    counts per area, time, solid angle and energy per nucleon; all symbols are
    known units. *)
Theorem C75_table_units : forall libm,
  expression_of_str libm (s "day") = Ok [var_term (s "day") 1%Qc] /\
  expression_of_str libm (s "1") = Ok [const_term 1%Qc] /\
  expression_of_str libm (s "e") = Ok [var_term (s "e") 1%Qc] /\
  expression_of_str libm (s "# / (cm^2 s sr MeV/nuc)") =
    Ok [var_term (s "#") 1%Qc; var_term (s "nuc") 1%Qc; var_term (s "MeV") (zq (-1)); var_term (s "s") (zq (-1)); var_term (s "sr") (zq (-1)); var_term (s "cm") (zq (-2))] /\
  forall b, In b [s "day"; s "e"; s "#"; s "nuc"; s "MeV"; s "s"; s "sr"; s "cm"] -> exists n, named_unit b = Some n.
Proof.
  intros libm. repeat split; try (vm_compute; reflexivity).
  assert (B : forallb (fun b => match named_unit b with Some _ => true | None => false end) [s "day"; s "e"; s "#"; s "nuc"; s "MeV"; s "s"; s "sr"; s "cm"] = true) by (vm_compute; reflexivity).
  intros b I. rewrite forallb_forall in B. specialize (B b I). destruct (named_unit b) as [n|]; [exists n; reflexivity|discriminate B].
Qed.
Print Assumptions C75_table_units.

(** Slashes inside exponents or numbers are taken for divisions, a second
    division changes sides, and variables without a unit are refused. *)
Theorem C75_meaning_refuted : forall libm,
  standardize (Some (s "m^1/2")) = Ok (s "m^1 / (2)") /\
  expression_of_str libm (s "m^1/2") = Ok [var_term (s "m") (mkq 1 2)] /\
  expression_of_str libm (s "m^1 / (2)") = Ok [const_term (mkq 1 2); var_term (s "m") 1%Qc] /\
  standardize (Some (s "m / s / s")) = Ok (s "m / (s / s)") /\
  expression_of_str libm (s "m / s / s") = Ok [var_term (s "m") 1%Qc; var_term (s "s") (zq (-2))] /\
  expression_of_str libm (s "m / (s / s)") = Ok [var_term (s "m") 1%Qc] /\
  standardize None = Raise TypeError.
Proof. intros libm. repeat split; vm_compute; reflexivity. Qed.
Print Assumptions C75_meaning_refuted.
