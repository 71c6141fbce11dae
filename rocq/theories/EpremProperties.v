(** * C43: observers are located uniquely *)
From Coq Require Import Permutation.
From Verif Require Import PyBase PyLemmas ContainerModel ContainerProofs ContainerProofs2 FsModel SymbolicModel ParameterModel ConfigSpec ConfigProofs EpremModel.

(** ** Specification *)
(** A file of an observer: a prefix, the padded number, a dot and anything. *)
Definition observer_file (prefixes : list str) (width : nat) (z : Z) (x : str) : Prop :=
  exists prefix rest, In prefix prefixes /\ x = prefix ++ pad width z ++ s "." ++ rest.
(** The only entry with a property. *)
Definition only (listing : list str) (P : str -> Prop) (x : str) : Prop :=
  In x listing /\ P x /\ forall y, In y listing -> P y -> y = x.
Definition literal (x : str) : Prop := forall c, In c x -> c <> "*"%char /\ c <> "?"%char /\ c <> "["%char.
Definition nodots (x : str) : Prop := ~ In "."%char x.

(** ** Patterns *)
Lemma wild_lit lit p : literal lit -> forall x, wildcard (lit ++ p) x = true <-> exists r, x = lit ++ r /\ wildcard p r = true.
Proof.
  induction lit as [|c lit IH]; intros L x.
  - simpl. split; [eauto|]. intros (r & -> & W). exact W.
  - destruct (L c (or_introl eq_refl)) as (N1 & N2 & _). assert (L' : literal lit) by (intros d I; apply L; right; exact I).
    cbn [app wildcard]. destruct (Ascii.eqb c "*") eqn:E; [apply Ascii.eqb_eq in E; contradiction|].
    destruct x as [|y x]; [split; [discriminate|intros (r & X & _); discriminate]|].
    destruct (Ascii.eqb c "?") eqn:E2; [apply Ascii.eqb_eq in E2; contradiction|]. cbn [orb]. rewrite andb_true_iff, (IH L' x). split.
    + intros [X (r & -> & W)]. apply Ascii.eqb_eq in X. subst. exists r. auto.
    + intros (r & X & W). inversion X; subst. split; [apply Ascii.eqb_refl|]. eauto.
Qed.
Lemma wild_star x : wildcard (s "*") x = true.
Proof.
  unfold s. cbn [list_ascii_of_string wildcard]. change (Ascii.eqb "*" "*") with true. cbn iota.
  induction x as [|c x IH]; [reflexivity|]. rewrite orb_true_iff. right. exact IH.
Qed.
Lemma wild_dot lit x : literal lit -> wildcard (lit ++ s ".*") x = true <-> exists r, x = lit ++ s "." ++ r.
Proof.
  intros L. change (s ".*") with (s "." ++ s "*"). rewrite app_assoc. rewrite wild_lit.
  - split; [intros (r & -> & _); exists r; rewrite <- app_assoc; reflexivity|]. intros (r & ->). exists r. rewrite <- app_assoc. split; [reflexivity|apply wild_star].
  - intros c I. apply in_app_iff in I as [I|[<-|[]]]; [apply L, I|]. repeat split; discriminate.
Qed.
Lemma wild_any lit x : literal lit -> wildcard (lit ++ s "*") x = true <-> exists r, x = lit ++ r.
Proof.
  intros L. rewrite wild_lit by exact L. split; [intros (r & -> & _); eauto|]. intros (r & ->). exists r. split; [reflexivity|apply wild_star].
Qed.

(** ** Numbers *)
Lemma digit_cases c : is_digit c = true -> c <> "*"%char /\ c <> "?"%char /\ c <> "["%char /\ c <> "."%char /\ c <> "-"%char /\ c <> "+"%char /\ is_space c = false.
Proof. destruct c as [[] [] [] [] [] [] [] []]; vm_compute; intros E; try discriminate E; repeat split; discriminate. Qed.
Lemma zeros_digits n : Forall (fun c => is_digit c = true) (zeros n).
Proof. induction n; constructor; auto. Qed.
Lemma zeros_val n a x : fold_left (fun a c => (10 * a + digit_val c)%N) (zeros n ++ x) a = fold_left (fun a c => (10 * a + digit_val c)%N) x (a * 10 ^ N.of_nat n)%N.
Proof.
  revert a. induction n as [|n IH]; intros a; [simpl; f_equal; lia|]. cbn [zeros repeat app fold_left]. change (repeat "0"%char n) with (zeros n). rewrite IH. f_equal.
  rewrite Nat2N.inj_succ, N.pow_succ_r'. change (digit_val "0") with 0%N. lia.
Qed.
Lemma pad_form w z : exists sign ds, pad w z = sign ++ ds /\ Forall (fun c => is_digit c = true) ds /\ ds <> [] /\
  ((z < 0)%Z -> sign = s "-") /\ ((0 <= z)%Z -> sign = []) /\ Z.of_N (N_of_str ds) = Z.abs z.
Proof.
  assert (V : forall k n, N_of_str (zeros k ++ str_of_N n) = n).
  { intros k n. unfold N_of_str. rewrite zeros_val. change (0 * 10 ^ N.of_nat k)%N with 0%N. apply N_of_str_of_N. }
  assert (NE : forall k n, zeros k ++ str_of_N n <> []).
  { intros k n E. apply app_eq_nil in E as [_ E]. exact (str_of_N_nonempty n E). }
  assert (D : forall k n, Forall (fun c => is_digit c = true) (zeros k ++ str_of_N n)) by (intros; apply Forall_app; split; [apply zeros_digits|apply str_of_N_digits]).
  destruct z as [|p|p]; cbn [pad].
  - exists []. eexists. split; [reflexivity|]. split; [apply D|]. split; [apply NE|]. split; [lia|]. split; [reflexivity|]. rewrite V. reflexivity.
  - exists []. eexists. split; [reflexivity|]. split; [apply D|]. split; [apply NE|]. split; [lia|]. split; [reflexivity|]. rewrite V. reflexivity.
  - exists (s "-"). eexists. split; [reflexivity|]. split; [apply D|]. split; [apply NE|]. split; [reflexivity|]. split; [lia|]. rewrite V. reflexivity.
Qed.
Lemma pad_char w z c : In c (pad w z) -> c = "-"%char \/ is_digit c = true.
Proof.
  destruct (pad_form w z) as (sg & ds & E & D & _ & N & P & _). rewrite E. intros I. apply in_app_iff in I as [I|I].
  - left. destruct (Z_lt_le_dec z 0) as [L|L]; [rewrite (N L) in I; destruct I as [<-|[]]; reflexivity|rewrite (P L) in I; destruct I].
  - right. exact (proj1 (Forall_forall _ _) D c I).
Qed.
Lemma pad_literal w z : literal (pad w z).
Proof.
  intros c I. apply pad_char in I as [->|I]; [repeat split; discriminate|]. apply digit_cases in I. tauto.
Qed.
Lemma pad_nodots w z : nodots (pad w z).
Proof. intros I. apply pad_char in I as [E|I]; [discriminate|]. apply digit_cases in I. tauto. Qed.
Lemma strip_nospace x : (forall c, In c x -> is_space c = false) -> strip x = x.
Proof.
  assert (L : forall y, (forall c, In c y -> is_space c = false) -> lstrip y = y).
  { intros [|c y] H; [reflexivity|]. cbn [lstrip]. rewrite (H c (or_introl eq_refl)). reflexivity. }
  intros H. unfold strip, rstrip. rewrite (L x H), L; [apply rev_involutive|]. intros c I. apply H. apply in_rev. exact I.
Qed.
(** Reading a padded number gives the number. *)
Lemma pad_text w z : z_of_text (pad w z) = Ok z.
Proof.
  destruct (pad_form w z) as (sg & ds & E & D & NE & N & P & V). unfold z_of_text.
  rewrite strip_nospace. 2:{ intros c I. apply pad_char in I as [->|I]; [reflexivity|]. apply digit_cases in I. tauto. }
  assert (F : forallb is_digit ds = true) by (apply forallb_forall; apply Forall_forall; exact D).
  rewrite E. destruct ds as [|d ds]; [congruence|]. destruct (Z_lt_le_dec z 0) as [L|L].
  - rewrite (N L). cbn [s list_ascii_of_string app unsigned]. change (is_sign "-"%char) with true. cbn iota. rewrite F.
    change (Ascii.eqb "-"%char "-"%char) with true. cbn iota. f_equal. rewrite V. lia.
  - rewrite (P L). cbn [app]. pose proof (Forall_inv D) as DD. apply digit_cases in DD as (_ & _ & _ & _ & M & PL & _).
    assert (SG : is_sign d = false). { unfold is_sign. apply orb_false_iff. split; apply Ascii.eqb_neq; assumption. }
    cbn [unsigned]. rewrite SG, F. apply Ascii.eqb_neq in M. rewrite M. f_equal. rewrite V. lia.
Qed.
Lemma pad_inj w z z' r r' : pad w z ++ s "." ++ r = pad w z' ++ s "." ++ r' -> z = z'.
Proof.
  intros E. assert (G : forall a b u v, nodots a -> nodots b -> a ++ s "." ++ u = b ++ s "." ++ v -> a = b).
  { induction a as [|x a IH]; intros [|y b] u v NA NB X; [reflexivity| | |].
    - cbn in X. inversion X; subst. exfalso. apply NB. left. reflexivity.
    - cbn in X. inversion X; subst. exfalso. apply NA. left. reflexivity.
    - cbn [app] in X. inversion X; subst. f_equal. apply (IH b u v); [intros I; apply NA; right; exact I|intros I; apply NB; right; exact I|assumption]. }
  apply G in E; [|apply pad_nodots|apply pad_nodots]. pose proof (pad_text w z) as A. rewrite E, pad_text in A. congruence.
Qed.

(** ** Choosing a data file *)
Lemma filter_only (f : str -> bool) l x : NoDup l -> filter f l = [x] <-> only l (fun y => f y = true) x.
Proof.
  intros ND. split.
  - intros E. assert (I : In x (filter f l)) by (rewrite E; left; reflexivity). apply filter_In in I as [I F]. split; [exact I|]. split; [exact F|].
    intros y Iy Fy. assert (J : In y (filter f l)) by (apply filter_In; auto). rewrite E in J. destruct J as [J|[]]; auto.
  - intros (I & F & U). assert (NF : NoDup (filter f l)) by (apply NoDup_filter, ND).
    assert (J : In x (filter f l)) by (apply filter_In; auto). destruct (filter f l) as [|a [|b m]] eqn:E; [destruct J| |].
    + destruct J as [->|[]]. reflexivity.
    + exfalso. inversion NF as [|? ? NI _]; subst. apply NI. left.
      assert (A : In a (filter f l)) by (rewrite E; left; reflexivity). assert (B : In b (filter f l)) by (rewrite E; right; left; reflexivity).
      apply filter_In in A as [A1 A2]. apply filter_In in B as [B1 B2]. rewrite (U a A1 A2), (U b B1 B2). reflexivity.
Qed.
Lemma filter_none (f : str -> bool) l : filter f l = [] <-> forall y, In y l -> f y = false.
Proof.
  split.
  - intros E y I. destruct (f y) eqn:F; [|reflexivity]. assert (J : In y (filter f l)) by (apply filter_In; auto). rewrite E in J. destruct J.
  - intros H. destruct (filter f l) as [|a m] eqn:E; [reflexivity|]. assert (A : In a (filter f l)) by (rewrite E; left; reflexivity).
    apply filter_In in A as [A B]. rewrite (H a A) in B. discriminate.
Qed.
(** A file is chosen exactly if it is the only match of some pattern and no
    earlier pattern has a match. *)
Theorem C43_found patterns listing x :
  NoDup listing ->
  build_datapath patterns listing = Ok x <->
  exists before p after, patterns = before ++ p :: after /\
    (forall q y, In q before -> In y listing -> wildcard q y = false) /\ only listing (fun y => wildcard p y = true) x.
Proof.
  intros ND. induction patterns as [|p ps IH].
  - split; [discriminate|]. intros (b & p & a & E & _). destruct b; discriminate.
  - cbn [build_datapath]. unfold matching. destruct (filter (wildcard p) listing) as [|y [|y' m]] eqn:F.
    + rewrite IH. split.
      * intros (b & q & a & -> & N & O). exists (p :: b), q, a. split; [reflexivity|]. split; [|exact O].
        intros r z [<-|I] J; [apply (proj1 (filter_none (wildcard p) listing) F z J)|apply N; assumption].
      * intros (b & q & a & E & N & O). destruct b as [|p' b]; inversion E; subst.
        { apply (filter_only (wildcard q) listing x ND) in O. congruence. }
        exists b, q, a. split; [reflexivity|]. split; [|exact O]. intros r z I J. apply N; [right; exact I|exact J].
    + split.
      * intros X; inversion X; subst. exists [], p, ps. split; [reflexivity|]. split; [intros q z []|]. apply filter_only; assumption.
      * intros (b & q & a & E & N & O). destruct b as [|p' b]; inversion E; subst.
        { apply (filter_only (wildcard q) listing x ND) in O. congruence. }
        assert (J : In y (filter (wildcard p') listing)) by (rewrite F; left; reflexivity). apply filter_In in J as [J1 J2].
        rewrite (N p' y (or_introl eq_refl) J1) in J2. discriminate.
    + split; [discriminate|]. intros (b & q & a & E & N & O). exfalso. destruct b as [|p' b]; inversion E; subst.
      * apply (filter_only (wildcard q) listing x ND) in O. congruence.
      * assert (J : In y (filter (wildcard p') listing)) by (rewrite F; left; reflexivity). apply filter_In in J as [J1 J2].
        rewrite (N p' y (or_introl eq_refl) J1) in J2. discriminate.
Qed.
(** Otherwise the outcome is the documented error. *)
Theorem C43_not_found patterns listing e : build_datapath patterns listing = Raise e -> e = OtherError "SourcePathError".
Proof.
  induction patterns as [|p ps IH]; cbn [build_datapath]; [intros E; inversion E; reflexivity|].
  destruct (matching listing p) as [|y [|y' m]]; [exact IH|discriminate|]. intros E; inversion E; reflexivity.
Qed.
Lemma datapath_in patterns listing x : build_datapath patterns listing = Ok x -> In x listing /\ exists p, In p patterns /\ wildcard p x = true.
Proof.
  induction patterns as [|p ps IH]; cbn [build_datapath]; [discriminate|]. destruct (matching listing p) as [|y [|y' m]] eqn:M.
  - intros E. destruct (IH E) as [A (q & B & C)]. split; [exact A|]. exists q. split; [right; exact B|exact C].
  - intros E; inversion E; subst. assert (J : In x (matching listing p)) by (rewrite M; left; reflexivity). apply filter_In in J as [J1 J2].
    split; [exact J1|]. exists p. split; [left; reflexivity|exact J2].
  - discriminate.
Qed.
(** If the patterns together match one file only, their order is irrelevant. *)
Lemma datapath_only patterns listing x :
  NoDup listing -> only listing (fun y => exists p, In p patterns /\ wildcard p y = true) x -> build_datapath patterns listing = Ok x.
Proof.
  intros ND (I & (p & Ip & Wp) & U). apply C43_found; [exact ND|].
  assert (S : exists before q after, patterns = before ++ q :: after /\ wildcard q x = true /\ forall r, In r before -> wildcard r x = false).
  { clear U. induction patterns as [|q ps IH]; [destruct Ip|]. destruct (wildcard q x) eqn:W.
    - exists [], q, ps. split; [reflexivity|]. split; [exact W|]. intros r [].
    - destruct Ip as [->|Ip]; [congruence|]. destruct (IH Ip) as (b & q' & a & -> & W' & N). exists (q :: b), q', a. split; [reflexivity|]. split; [exact W'|].
      intros r [<-|J]; [exact W|apply N, J]. }
  destruct S as (b & q & a & E & W & N). exists b, q, a. split; [exact E|]. split.
  - intros r y J Jy. destruct (wildcard r y) eqn:R; [|reflexivity]. rewrite (U y Jy) in R; [rewrite (N r J) in R; discriminate|].
    exists r. split; [rewrite E; apply in_app_iff; auto|exact R].
  - split; [exact I|]. split; [exact W|]. intros y Jy Wy. apply U; [exact Jy|]. exists q. split; [rewrite E; apply in_app_iff; right; left; reflexivity|exact Wy].
Qed.
Lemma prefixes_literal p : In p (stream_prefixes ++ point_prefixes) -> literal p.
Proof.
  intros I c J. repeat (destruct I as [<-|I]; [cbn in J; repeat (destruct J as [<-|J]; [repeat split; discriminate|]); destruct J|]). destruct I.
Qed.
Lemma numbered_spec prefixes order w z y : Permutation order prefixes -> (forall p, In p prefixes -> literal p) ->
  (exists p, In p (map (fun prefix => prefix ++ pad w z ++ s ".*") order) /\ wildcard p y = true) <-> observer_file prefixes w z y.
Proof.
  intros PE L. split.
  - intros (p & I & W). apply in_map_iff in I as (pre & <- & I). apply (Permutation_in _ PE) in I. rewrite app_assoc in W. apply wild_dot in W as (r & ->).
    + exists pre, r. split; [exact I|]. rewrite <- app_assoc. reflexivity.
    + intros c J. apply in_app_iff in J as [J|J]; [exact (L pre I c J)|exact (pad_literal w z c J)].
  - intros (pre & r & I & ->). exists (pre ++ pad w z ++ s ".*"). split.
    + apply in_map_iff. exists pre. split; [reflexivity|]. apply (Permutation_in _ (Permutation_sym PE)), I.
    + rewrite app_assoc. apply wild_dot; [|exists r; rewrite <- app_assoc; reflexivity].
      intros c J. apply in_app_iff in J as [J|J]; [exact (L pre I c J)|exact (pad_literal w z c J)].
Qed.
Lemma only_iff listing (P Q : str -> Prop) x : (forall y, P y <-> Q y) -> only listing P x -> only listing Q x.
Proof. intros H (I & PX & U). split; [exact I|]. split; [apply H, PX|]. intros y J QY. apply U; [exact J|apply H, QY]. Qed.

(** ** Stream observers *)
Section Open.
Variable resolve : str -> option str.
Variable config : confarg.
(** Whatever order the interpreter gives to the prefixes: if the directory has
    exactly one file of the stream, that file is opened (with the configuration
    file, if that can be found). *)
Theorem C43_stream order z listing x conf :
  Permutation order stream_prefixes -> NoDup listing ->
  only listing (observer_file stream_prefixes 6 z) x -> build_confpath resolve listing config = Ok conf ->
  open_stream resolve order (IdInt z) (Directory listing) config = Ok {| l_data := x; l_conf := conf |}.
Proof using.
  intros PE ND O C. unfold open_stream. cbn [stream_patterns bind create_observer].
  rewrite (datapath_only _ listing x ND); [cbn [bind]; rewrite C; reflexivity|].
  revert O. apply only_iff. intros y. symmetry. apply numbered_spec; [exact PE|]. intros p I. apply prefixes_literal, in_app_iff. auto.
Qed.
(** Only a file of that stream is ever opened, and it carries the number. *)
Theorem C43_stream_only order id src l :
  Permutation order stream_prefixes -> open_stream resolve order id src config = Ok l ->
  exists z listing, id = IdInt z /\ src = Directory listing /\ In (l_data l) listing /\ observer_file stream_prefixes 6 z (l_data l).
Proof using.
  intros PE. unfold open_stream. destruct id as [z|x|]; [|discriminate|discriminate]. cbn [stream_patterns bind].
  destruct src as [| |listing]; [discriminate|discriminate|]. cbn [create_observer]. destruct (build_datapath _ listing) as [x|e] eqn:B; [|discriminate].
  cbn [bind]. destruct (build_confpath resolve listing config) as [c|e]; [|discriminate]. cbn [bind]. intros E; inversion E; subst l. cbn [l_data].
  apply datapath_in in B as [I W]. exists z, listing. split; [reflexivity|]. split; [reflexivity|]. split; [exact I|].
  apply (numbered_spec stream_prefixes order 6 z x PE); [|exact W]. intros p J. apply prefixes_literal, in_app_iff. auto.
Qed.
(** A directory without a file of the stream is the documented error. *)
Theorem C43_stream_missing order z listing :
  Permutation order stream_prefixes -> (forall y, In y listing -> ~ observer_file stream_prefixes 6 z y) ->
  open_stream resolve order (IdInt z) (Directory listing) config = Raise (OtherError "SourcePathError").
Proof using.
  intros PE N. unfold open_stream. cbn [stream_patterns bind create_observer]. destruct (build_datapath _ listing) as [x|e] eqn:B.
  - exfalso. apply datapath_in in B as [I W]. apply (N x I). apply (numbered_spec stream_prefixes order 6 z x PE); [|exact W].
    intros p J. apply prefixes_literal, in_app_iff. auto.
  - rewrite (C43_not_found _ _ _ B). reflexivity.
Qed.
(** Points by number. *)
Theorem C43_point order z listing x conf :
  Permutation order point_prefixes -> NoDup listing ->
  only listing (observer_file point_prefixes 3 z) x -> build_confpath resolve listing config = Ok conf ->
  open_point resolve order (IdInt z) (Directory listing) config = Ok {| l_data := x; l_conf := conf |}.
Proof using.
  intros PE ND O C. unfold open_point. cbn [point_patterns bind create_observer].
  rewrite (datapath_only _ listing x ND); [cbn [bind]; rewrite C; reflexivity|].
  revert O. apply only_iff. intros y. symmetry. apply numbered_spec; [exact PE|]. intros p I. apply prefixes_literal, in_app_iff. auto.
Qed.
(** Points by name: a name that is not a number and has no wildcards opens
    exactly the file with that name before a dot. *)
Theorem C43_point_name order name listing x conf :
  literal name -> (forall z, z_of_text name <> Ok z) -> NoDup listing ->
  only listing (fun y => exists rest, y = name ++ s "." ++ rest) x -> build_confpath resolve listing config = Ok conf ->
  open_point resolve order (IdStr name) (Directory listing) config = Ok {| l_data := x; l_conf := conf |} /\
  open_observer resolve [s "obs"; s "flux"] (IdStr name) (Directory listing) config = Ok (KPoint, {| l_data := x; l_conf := conf |}).
Proof using.
  intros L NZ ND O C.
  assert (B : build_datapath [name ++ s ".*"] listing = Ok x).
  { apply datapath_only; [exact ND|]. revert O. apply only_iff. intros y. rewrite <- (wild_dot name y L). split.
    - intros W. exists (name ++ s ".*"). split; [left; reflexivity|exact W].
    - intros (p & [<-|[]] & W). exact W. }
  unfold open_point, open_observer, point_patterns, observer_patterns. destruct (z_of_text name) as [z|e]; [exfalso; exact (NZ z eq_refl)|].
  cbn [app bind snd fst create_observer]. rewrite B. cbn [bind]. rewrite C. split; reflexivity.
Qed.
End Open.
(** Files of different streams are different files. *)
Theorem C43_distinct z z' x : observer_file stream_prefixes 6 z x -> observer_file stream_prefixes 6 z' x -> z = z'.
Proof.
  intros (p & r & I & ->) (p' & r' & I' & E).
  assert (H : exists c d u v, pad 6 z = c :: u /\ pad 6 z' = d :: v /\ (c = "-"%char \/ is_digit c = true) /\ (d = "-"%char \/ is_digit d = true)).
  { assert (G : forall y, exists c u, pad 6 y = c :: u /\ (c = "-"%char \/ is_digit c = true)).
    { intros y. destruct (pad 6 y) as [|c u] eqn:P.
      - destruct (pad_form 6 y) as (sg & ds & E2 & _ & NE & _). rewrite P in E2. symmetry in E2. apply app_eq_nil in E2 as [_ E2]. contradiction.
      - exists c, u. split; [reflexivity|]. apply (pad_char 6 y). rewrite P. left. reflexivity. }
    destruct (G z) as (c & u & P & C). destruct (G z') as (d & v & P' & D). exists c, d, u, v. auto. }
  destruct H as (c & d & u & v & P & P' & C & D).
  assert (p = p').
  { rewrite P, P' in E. repeat (destruct I as [<-|I]; [repeat (destruct I' as [<-|I']; [try reflexivity; discriminate E|]); destruct I'|]). destruct I. }
  subst p'. apply app_inv_head in E. exact (pad_inj 6 z z' r r' E).
Qed.
(** Refuted: with two kinds of files for one stream, the file that is opened
    depends on the order in which the interpreter iterates over a set. *)
Theorem C43_order_refuted :
  let listing := [s "obs000001.nc"; s "flux000001.nc"; s "eprem.cfg"] in
  let open order := match open_stream (fun _ => None) order (IdInt 1) (Directory listing) CNone with Ok l => Some (l_data l) | Raise _ => None end in
  open [s "stream"; s "obs"; s "flux"] = Some (s "obs000001.nc") /\ open [s "stream"; s "flux"; s "obs"] = Some (s "flux000001.nc").
Proof. split; vm_compute; reflexivity. Qed.
(** Refuted: and so does success. *)
Theorem C43_success_order_refuted :
  let listing := [s "obs000001.nc"; s "obs000001.nc.bak"; s "flux000001.nc"; s "eprem.cfg"] in
  let open order := is_ok (open_stream (fun _ => None) order (IdInt 1) (Directory listing) CNone) in
  open [s "stream"; s "obs"; s "flux"] = false /\ open [s "stream"; s "flux"; s "obs"] = true.
Proof. split; vm_compute; reflexivity. Qed.
(** Refuted: wildcards in a point's name are not taken literally. *)
Theorem C43_wildcard_refuted :
  option_map l_data (match open_point (fun _ => None) point_prefixes (IdStr (s "Mar?")) (Directory [s "Mars.nc"; s "eprem.cfg"]) CNone with Ok l => Some l | Raise _ => None end)
  = Some (s "Mars.nc").
Proof. vm_compute. reflexivity. Qed.

(** ** Recovering the id *)
Definition all_prefixes : list str := stream_prefixes ++ point_prefixes.
Lemma last_dot_one a b : nodots b -> last_dot (a ++ s "." ++ b) = Some (a, b).
Proof.
  intros NB. assert (LB : last_dot b = None).
  { induction b as [|c b IH]; [reflexivity|]. cbn [last_dot]. rewrite IH by (intros I; apply NB; right; exact I).
    destruct (Ascii.eqb c ".") eqn:E; [apply Ascii.eqb_eq in E; subst; exfalso; apply NB; left; reflexivity|reflexivity]. }
  induction a as [|c a IH].
  - cbn [app s list_ascii_of_string last_dot]. rewrite LB. reflexivity.
  - cbn [app last_dot]. cbn [app] in IH. rewrite IH. reflexivity.
Qed.
Lemma stem_one a b : a <> [] -> b <> [] -> nodots b -> stem (a ++ s "." ++ b) = a /\ suffix (a ++ s "." ++ b) = s "." ++ b.
Proof. intros NA NB ND. unfold stem, suffix. rewrite last_dot_one by exact ND. destruct a; [congruence|]. destruct b; [congruence|]. split; reflexivity. Qed.
Lemma starts_iff p x : starts p x = true <-> exists r, x = p ++ r.
Proof.
  revert x. induction p as [|a p IH]; intros x; [simpl; split; eauto|]. destruct x as [|b x]; cbn [starts].
  - split; [discriminate|]. intros (r & E). discriminate.
  - rewrite andb_true_iff, Ascii.eqb_eq, IH. split; [intros [-> (r & ->)]; exists r; reflexivity|]. intros (r & E). inversion E; subst. eauto.
Qed.
Lemma lstrip_prefix f p c x : (forall d, In d p -> f d = true) -> f c = false -> lstrip_chars f (p ++ c :: x) = c :: x.
Proof.
  intros P C. induction p as [|d p IH]; cbn [app lstrip_chars]; [rewrite C; reflexivity|]. rewrite (P d (or_introl eq_refl)). apply IH. intros e I. apply P. right; exact I.
Qed.
Lemma prefix_unique p p' r r' : In p all_prefixes -> In p' all_prefixes -> p ++ r = p' ++ r' -> p = p'.
Proof.
  intros I I' E. unfold all_prefixes, stream_prefixes, point_prefixes in *. cbn [app] in I, I'.
  repeat (destruct I as [<-|I]; [repeat (destruct I' as [<-|I']; [try reflexivity; discriminate E|]); destruct I'|]). destruct I.
Qed.
Lemma get_id_at order p x : Permutation order all_prefixes -> In p all_prefixes -> starts p (stem x) = true ->
  get_observer_id order x = if existsb (str_eqb p) stream_prefixes then z <- z_of_text (lstrip_chars (in_chars p) (stem x)) ;; Ok (KeyInt z)
                            else Ok (KeyStr (lstrip_chars (in_chars p) (stem x))).
Proof.
  intros PE I S. assert (J : In p order) by (apply (Permutation_in _ (Permutation_sym PE)), I).
  assert (A : forall q, In q order -> In q all_prefixes) by (intros q; apply (Permutation_in _ PE)). clear PE.
  induction order as [|q order IH]; [destruct J|]. cbn [get_observer_id]. destruct (starts q (stem x)) eqn:Q.
  - assert (q = p) as ->; [|reflexivity]. apply starts_iff in S as (r & S). apply starts_iff in Q as (r' & Q). rewrite Q in S.
    exact (prefix_unique q p r' r (A q (or_introl eq_refl)) I S).
  - destruct J as [->|J]; [congruence|]. apply IH; [exact J|]. intros q' Iq. apply A. right; exact Iq.
Qed.
Lemma in_chars_self p d : In d p -> in_chars p d = true.
Proof. intros I. apply existsb_exists. exists d. split; [exact I|apply Ascii.eqb_refl]. Qed.
Lemma pad_head_free p w z : In p all_prefixes -> exists c u, pad w z = c :: u /\ in_chars p c = false.
Proof.
  intros I. destruct (pad w z) as [|c u] eqn:P.
  - destruct (pad_form w z) as (sg & ds & E2 & _ & NE & _). rewrite P in E2. symmetry in E2. apply app_eq_nil in E2 as [_ E2]. contradiction.
  - exists c, u. split; [reflexivity|]. assert (C : c = "-"%char \/ is_digit c = true) by (apply (pad_char w z); rewrite P; left; reflexivity).
    assert (F : forallb (fun q => forallb (fun d => negb (is_digit d) && negb (Ascii.eqb d "-")) q) all_prefixes = true) by reflexivity.
    pose proof (proj1 (forallb_forall _ _) F p I) as FP. cbn beta in FP. unfold in_chars.
    destruct (existsb (Ascii.eqb c) p) eqn:X; [|reflexivity]. apply existsb_exists in X as (d & Id & E). apply Ascii.eqb_eq in E. subst d.
    pose proof (proj1 (forallb_forall _ _) FP c Id) as G. cbn beta in G. apply andb_true_iff in G as [G1 G2].
    destruct C as [->|C]; [discriminate G2|]. rewrite C in G1. discriminate.
Qed.
(** The id read from the name of a stream file is the number of the stream; for
    a numbered point it is the padded number. *)
Theorem C43_id order p w z ext :
  Permutation order all_prefixes -> In p all_prefixes -> ext <> [] -> nodots ext ->
  get_observer_id order (p ++ pad w z ++ s "." ++ ext) = Ok (if existsb (str_eqb p) stream_prefixes then KeyInt z else KeyStr (pad w z)).
Proof.
  intros PE I NE ND. destruct (pad_head_free p w z I) as (c & u & P & C).
  assert (ST : stem (p ++ pad w z ++ s "." ++ ext) = p ++ pad w z).
  { rewrite app_assoc. apply stem_one; [|exact NE|exact ND]. rewrite P. intros E. apply app_eq_nil in E as [_ E]. discriminate. }
  rewrite (get_id_at order p _ PE I); [|rewrite ST; apply starts_iff; eauto]. rewrite ST.
  assert (LS : lstrip_chars (in_chars p) (p ++ pad w z) = pad w z) by (rewrite P; apply lstrip_prefix; [intros d; apply in_chars_self|exact C]).
  rewrite LS. destruct (existsb (str_eqb p) stream_prefixes); [|reflexivity].
  rewrite pad_text. reflexivity.
Qed.
Lemma dot_inj a b u v : nodots a -> nodots b -> a ++ s "." ++ u = b ++ s "." ++ v -> a = b /\ u = v.
Proof.
  revert b. induction a as [|x a IH]; intros [|y b] NA NB X.
  - split; [reflexivity|]. cbn in X. congruence.
  - cbn in X. inversion X; subst. exfalso. apply NB. left. reflexivity.
  - cbn in X. inversion X; subst. exfalso. apply NA. left. reflexivity.
  - cbn [app] in X. inversion X as [[Y Z]]. subst. destruct (IH b) as [-> ->]; [intros I; apply NA; right; exact I|intros I; apply NB; right; exact I|exact Z|]. split; reflexivity.
Qed.
Lemma prefixes_nodots p : In p all_prefixes -> nodots p.
Proof.
  intros I J. unfold all_prefixes, stream_prefixes, point_prefixes in I. cbn [app] in I.
  repeat (destruct I as [<-|I]; [cbn in J; repeat (destruct J as [J|J]; [discriminate J|]); destruct J|]). destruct I.
Qed.
(** Opening a stream and reading the id from the name of the file that was
    opened gives the requested id, for file names with one extension. *)
Theorem C43_roundtrip resolve config order all z src l base ext :
  Permutation order stream_prefixes -> Permutation all all_prefixes ->
  open_stream resolve order (IdInt z) src config = Ok l ->
  l_data l = base ++ s "." ++ ext -> nodots base -> nodots ext -> ext <> [] ->
  get_observer_id all (l_data l) = Ok (KeyInt z).
Proof.
  intros PO PA O E NB ND NE. destruct (C43_stream_only resolve config order (IdInt z) src l PO O) as (z' & listing & Ez & _ & _ & (p & rest & I & F)).
  inversion Ez; subst z'. rewrite E in F. rewrite (app_assoc p) in F. apply dot_inj in F as [F1 F2]; [|exact NB|].
  - rewrite E, F1, <- app_assoc. rewrite (C43_id all p 6 z ext PA); [|apply in_app_iff; auto|exact NE|exact ND].
    assert (X : existsb (str_eqb p) stream_prefixes = true) by (apply existsb_exists; exists p; split; [exact I|apply str_eqb_refl]). rewrite X. reflexivity.
  - intros J. apply in_app_iff in J as [J|J]; [|exact (pad_nodots 6 z J)]. apply (prefixes_nodots p); [apply in_app_iff; auto|exact J].
Qed.
(** Refuted: the id of a named point loses every leading character that occurs
    in the prefix, so that different points have the same id. *)
Theorem C43_point_id_refuted order :
  Permutation order all_prefixes ->
  get_observer_id order (s "p_obspsp.nc") = Ok (KeyStr []) /\
  get_observer_id order (s "p_obssolo.nc") = Ok (KeyStr (s "lo")) /\ get_observer_id order (s "pointlo.nc") = Ok (KeyStr (s "lo")).
Proof.
  intros PE. repeat split.
  - rewrite (get_id_at order (s "p_obs") _ PE); [vm_compute; reflexivity|cbn; tauto|reflexivity].
  - rewrite (get_id_at order (s "p_obs") _ PE); [vm_compute; reflexivity|cbn; tauto|reflexivity].
  - rewrite (get_id_at order (s "point") _ PE); [vm_compute; reflexivity|cbn; tauto|reflexivity].
Qed.

(** ** All the observers of a dataset *)
Lemma obskey_decides : forall a b, obskey_eqb a b = true <-> a = b.
Proof.
  intros [x|x] [y|y]; cbn [obskey_eqb]; try (split; discriminate); rewrite ?Z.eqb_eq, ?str_eqb_eq; (split; [intros ->; reflexivity|intros E; inversion E; reflexivity]).
Qed.
Lemma dict_of_in {V} (l : list (obskey * V)) : 
  (forall k v, lookup obskey_eqb (dict_of obskey_eqb l) k = Ok v -> In (k, v) l) /\
  (forall k v, In (k, v) l -> exists w, lookup obskey_eqb (dict_of obskey_eqb l) k = Ok w).
Proof.
  unfold dict_of. assert (G : forall l d,
    (forall k v, lookup obskey_eqb (fold_left (fun d kv => dict_put obskey_eqb d (fst kv) (snd kv)) l d) k = Ok v -> In (k, v) l \/ lookup obskey_eqb d k = Ok v) /\
    (forall k, (exists v, In (k, v) l) \/ (exists v, lookup obskey_eqb d k = Ok v) -> exists w : V, lookup obskey_eqb (fold_left (fun d kv => dict_put obskey_eqb d (fst kv) (snd kv)) l d) k = Ok w)).
  { clear l. induction l as [|[k0 v0] l IH]; intros d; cbn [fold_left fst snd].
    - split; [intros k v E; right; exact E|]. intros k [(v & [])|X]; exact X.
    - destruct (IH (dict_put obskey_eqb d k0 v0)) as [I1 I2]. split.
      + intros k v E. apply I1 in E as [E|E]; [left; right; exact E|]. rewrite (dict_put_get obskey_eqb obskey_decides) in E.
        destruct (obskey_eqb k0 k) eqn:K; [|right; exact E]. apply obskey_decides in K. inversion E; subst. left; left; reflexivity.
      + intros k X. apply I2. assert (Y : k = k0 \/ (exists v, In (k, v) l) \/ exists v, lookup obskey_eqb d k = Ok v).
        { destruct X as [(v & [E|E])|X]; [inversion E; auto| |auto]. right; left; eauto. }
        destruct Y as [->|[Y|(v & Y)]]; [|left; exact Y|]; right; rewrite (dict_put_get obskey_eqb obskey_decides).
        * rewrite (proj2 (obskey_decides k0 k0) eq_refl). eauto.
        * destruct (obskey_eqb k0 k); eauto. }
  destruct (G l []) as [G1 G2]. split.
  - intros k v E. apply G1 in E as [E|E]; [exact E|discriminate].
  - intros k v I. apply G2. left; eauto.
Qed.
Lemma mapM_pairs (f : str -> result obskey) l : (forall x, In x l -> exists k, f x = Ok k) ->
  exists ps, mapM (fun x => k <- f x ;; Ok (k, x)) l = Ok ps /\ forall k x, In (k, x) ps <-> In x l /\ f x = Ok k.
Proof.
  induction l as [|a l IH]; intros H; [exists []; split; [reflexivity|intros k x; split; [intros []|intros [[] _]]]|].
  destruct (H a (or_introl eq_refl)) as (ka & Fa). destruct IH as (ps & E & P); [intros x I; apply H; right; exact I|].
  exists ((ka, a) :: ps). cbn [mapM]. rewrite Fa. cbn [bind]. rewrite E. split; [reflexivity|]. intros k x. cbn [In]. rewrite P. split.
  - intros [X|[X Y]]; [inversion X; subst; auto|auto].
  - intros [[->|X] Y]; [left; congruence|right; auto].
Qed.
Lemma files_in order prefixes listing x : Permutation order prefixes -> (forall p, In p prefixes -> literal p) ->
  In x (observer_files order listing) <-> In x listing /\ suffix x = s ".nc" /\ exists p rest, In p prefixes /\ x = p ++ rest.
Proof.
  intros PE L. unfold observer_files, matching, viewable. rewrite filter_In, in_flat_map, str_eqb_eq. split.
  - intros [(p & I & J) S]. apply filter_In in J as [J W]. apply (Permutation_in _ PE) in I. apply (wild_any p x (L p I)) in W as (r & ->). eauto 8.
  - intros (I & S & p & r & Ip & ->). split; [|exact S]. exists p. split; [apply (Permutation_in _ (Permutation_sym PE)), Ip|].
    apply filter_In. split; [exact I|]. apply (wild_any p _ (L p Ip)). eauto.
Qed.
(** If every data file whose name begins like that of a stream is one, and no
    two of them have the same number, the dataset maps exactly the numbers of
    its streams to their files. *)
Theorem C43_streams order all listing :
  Permutation order stream_prefixes -> Permutation all all_prefixes ->
  (forall x p rest, In x listing -> suffix x = s ".nc" -> In p stream_prefixes -> x = p ++ rest -> exists z, x = p ++ pad 6 z ++ s ".nc") ->
  (forall x y p q z, In x listing -> In y listing -> In p stream_prefixes -> In q stream_prefixes ->
     x = p ++ pad 6 z ++ s ".nc" -> y = q ++ pad 6 z ++ s ".nc" -> x = y) ->
  exists m, observer_map order all listing = Ok m /\
    forall k x, lookup obskey_eqb m k = Ok x <-> exists p z, k = KeyInt z /\ In x listing /\ In p stream_prefixes /\ x = p ++ pad 6 z ++ s ".nc".
Proof.
  intros PO PA WF UN. assert (L : forall p, In p stream_prefixes -> literal p) by (intros p I; apply prefixes_literal, in_app_iff; auto).
  assert (ID : forall p z, In p stream_prefixes -> get_observer_id all (p ++ pad 6 z ++ s ".nc") = Ok (KeyInt z)).
  { intros p z I. change (s ".nc") with (s "." ++ s "nc"). rewrite (C43_id all p 6 z (s "nc") PA); [|apply in_app_iff; auto|discriminate|].
    - assert (X : existsb (str_eqb p) stream_prefixes = true) by (apply existsb_exists; exists p; split; [exact I|apply str_eqb_refl]). rewrite X. reflexivity.
    - intros [E|[E|[]]]; discriminate. }
  assert (SF : forall p z, In p stream_prefixes -> suffix (p ++ pad 6 z ++ s ".nc") = s ".nc").
  { intros p z I. change (s ".nc") with (s "." ++ s "nc"). rewrite app_assoc. apply stem_one; [|discriminate|intros [E|[E|[]]]; discriminate].
    destruct (pad_head_free p 6 z) as (c & u & P & _); [apply in_app_iff; auto|]. rewrite P. intros E. apply app_eq_nil in E as [_ E]. discriminate. }
  destruct (mapM_pairs (get_observer_id all) (observer_files order listing)) as (ps & E & P).
  { intros x I. apply (files_in order stream_prefixes listing x PO L) in I as (I & S & p & r & Ip & X). destruct (WF x p r I S Ip X) as (z & ->). exists (KeyInt z). apply ID, Ip. }
  unfold observer_map. rewrite E. cbn [bind]. eexists. split; [reflexivity|].
  assert (SP : forall k x, In (k, x) ps <-> exists p z, k = KeyInt z /\ In x listing /\ In p stream_prefixes /\ x = p ++ pad 6 z ++ s ".nc").
  { intros k x. rewrite P. rewrite (files_in order stream_prefixes listing x PO L). split.
    - intros [(I & S & p & r & Ip & X) K]. destruct (WF x p r I S Ip X) as (z & ->). exists p, z. rewrite (ID p z Ip) in K. inversion K. auto.
    - intros (p & z & -> & I & Ip & ->). split; [|apply ID, Ip]. split; [exact I|]. split; [apply SF, Ip|]. eauto. }
  intros k x. rewrite <- SP. destruct (dict_of_in ps) as [D1 D2]. split; [apply D1|]. intros I.
  destruct (D2 k x I) as (y & Ly). rewrite Ly. f_equal. apply D1 in Ly. apply SP in Ly as (q & z' & K' & Iy & Iq & Ey). apply SP in I as (p & z & K & Ix & Ip & Ex).
  rewrite K in K'. inversion K'; subst z'. exact (UN y x q p z Iy Ix Iq Ip Ey Ex).
Qed.
(** Refuted: one data file with another name, such as observed.nc, makes all
    the streams of the dataset unavailable. *)
Theorem C43_stray_file_refuted :
  observer_map stream_prefixes all_prefixes [s "obs000001.nc"; s "observed.nc"] = Raise ValueError.
Proof. vm_compute. reflexivity. Qed.
(** Refuted: of the two files of one stream only one is in the mapping, and
    which one depends on the order of a set. *)
Theorem C43_lost_file_refuted :
  observer_map [s "stream"; s "obs"; s "flux"] all_prefixes [s "obs000001.nc"; s "flux000001.nc"] = Ok [(KeyInt 1, s "flux000001.nc")] /\
  observer_map [s "stream"; s "flux"; s "obs"] all_prefixes [s "obs000001.nc"; s "flux000001.nc"] = Ok [(KeyInt 1, s "obs000001.nc")].
Proof. split; vm_compute; reflexivity. Qed.

(** ** The configuration file *)
(** Without a name, the first pattern with a match decides. *)
Theorem C43_config_guess resolve listing x :
  build_confpath resolve listing CNone = Ok x <->
  exists before p after y rest, config_names = before ++ p :: after /\ (forall q z, In q before -> In z listing -> wildcard q z = false) /\
    filter (wildcard p) listing = y :: rest /\ x = InDirectory y.
Proof.
  cbn [build_confpath]. generalize config_names as names. induction names as [|p ps IH].
  - split; [discriminate|]. intros (b & p & a & y & r & E & _). destruct b; discriminate.
  - cbn [guess_config]. unfold matching. destruct (filter (wildcard p) listing) as [|y m] eqn:F.
    + rewrite IH. split.
      * intros (b & q & a & y & r & -> & N & O & X). exists (p :: b), q, a, y, r. split; [reflexivity|]. split; [|split; [exact O|exact X]].
        intros r' z [<-|I] J; [apply (proj1 (filter_none (wildcard p) listing) F z J)|apply N; assumption].
      * intros (b & q & a & y & r & E & N & O & X). destruct b as [|p' b]; inversion E; subst; [congruence|].
        exists b, q, a, y, r. split; [reflexivity|]. split; [|split; [exact O|reflexivity]]. intros r' z I J. apply N; [right; exact I|exact J].
    + split.
      * intros X; inversion X; subst. exists [], p, ps, y, m. split; [reflexivity|]. split; [intros q z []|]. split; [exact F|reflexivity].
      * intros (b & q & a & y' & r & E & N & O & X). destruct b as [|p' b]; inversion E; subst; [congruence|].
        assert (J : In y (filter (wildcard p') listing)) by (rewrite F; left; reflexivity). apply filter_In in J as [J1 J2].
        rewrite (N p' y (or_introl eq_refl) J1) in J2. discriminate.
Qed.
(** A bare name is looked up in the source directory, anything else as a path. *)
Theorem C43_config_named resolve listing x :
  (is_name x = true -> In x listing -> build_confpath resolve listing (CText x) = Ok (InDirectory x)) /\
  (is_name x = true -> ~ In x listing -> build_confpath resolve listing (CText x) = Raise ValueError) /\
  (forall p, is_name x = false -> resolve x = Some p -> build_confpath resolve listing (CText x) = Ok (Elsewhere p)).
Proof.
  cbn [build_confpath]. repeat split.
  - intros -> I. assert (X : existsb (str_eqb x) listing = true) by (apply existsb_exists; exists x; split; [exact I|apply str_eqb_refl]). rewrite X. reflexivity.
  - intros -> N. destruct (existsb (str_eqb x) listing) eqn:X; [|reflexivity]. apply existsb_exists in X as (y & I & E). apply str_eqb_eq in E. subst. contradiction.
  - intros p -> ->. reflexivity.
Qed.
(** Refuted: the same bare name given as a path object is looked up in the
    current directory instead. *)
Theorem C43_config_path_refuted listing x :
  is_name x = true -> In x listing ->
  build_confpath (fun _ => None) listing (CText x) = Ok (InDirectory x) /\
  build_confpath (fun _ => None) listing (CPath x) = Raise (OtherError "NonExistentPathError").
Proof. intros N I. split; [apply (proj1 (C43_config_named (fun _ => None) listing x) N I)|reflexivity]. Qed.

(** ** What a data file contains *)
(** A view lists exactly the members of the reference table that the file has. *)
Theorem C43_view {A} (get : str -> result A) reference :
  (forall k e, In k reference -> get k = Raise e -> e = KeyError) ->
  exists m, view_map get reference = Ok m /\ forall k v, In (k, v) m <-> In k reference /\ get k = Ok v.
Proof.
  intros H. unfold view_map. induction reference as [|a l IH].
  - exists []. split; [reflexivity|]. intros k v. split; [intros []|intros [[] _]].
  - destruct IH as (m & E & P); [intros k e I; apply H; right; exact I|]. cbn [mapM].
    destruct (mapM _ l) as [ps|e] eqn:M; [|discriminate]. cbn [bind] in E. inversion E as [E']. destruct (get a) as [v|e] eqn:G.
    + exists ((a, v) :: m). split; [cbn [bind concat app]; rewrite E'; reflexivity|]. intros k w. cbn [In]. rewrite P. split.
      * intros [X|[X Y]]; [inversion X; subst; auto|auto].
      * intros [[->|X] Y]; [left; congruence|right; auto].
    + rewrite (H a e (or_introl eq_refl) G). exists m. split; [cbn [bind concat app]; rewrite E'; reflexivity|]. intros k w. cbn [In]. rewrite P. split; [tauto|].
      intros [[->|X] Y]; [congruence|auto].
Qed.

(** ** A directory that meets the hypotheses *)
Definition demo_listing : list str := [s "eprem.cfg"; s "obs000007.nc"; s "flux000012.nc"; s "p_obs003.nc"; s "notes.txt"].
Example C43_stream_example :
  NoDup demo_listing /\ only demo_listing (observer_file stream_prefixes 6 7) (s "obs000007.nc") /\
  open_stream (fun _ => None) [s "flux"; s "obs"; s "stream"] (IdInt 7) (Directory demo_listing) CNone
    = Ok {| l_data := s "obs000007.nc"; l_conf := InDirectory (s "eprem.cfg") |} /\
  observer_map stream_prefixes all_prefixes demo_listing = Ok [(KeyInt 7, s "obs000007.nc"); (KeyInt 12, s "flux000012.nc")].
Proof.
  split; [|split; [|split; vm_compute; reflexivity]].
  - repeat constructor; cbn; intros H; repeat (destruct H as [H|H]; [discriminate H|]); exact H.
  - split; [right; left; reflexivity|]. split; [exists (s "obs"), (s "nc"); split; [right; left; reflexivity|reflexivity]|].
    intros y I (p & r & Ip & E). unfold demo_listing in I. cbn [In] in I. unfold stream_prefixes in Ip. cbn [In] in Ip.
    repeat (destruct Ip as [<-|Ip]; [repeat (destruct I as [<-|I]; [try reflexivity; discriminate E|]); destruct I|]). destruct Ip.
Qed.
Print Assumptions C43_found.
Print Assumptions C43_not_found.
Print Assumptions C43_stream.
Print Assumptions C43_stream_only.
Print Assumptions C43_stream_missing.
Print Assumptions C43_point.
Print Assumptions C43_point_name.
Print Assumptions C43_distinct.
Print Assumptions C43_order_refuted.
Print Assumptions C43_success_order_refuted.
Print Assumptions C43_wildcard_refuted.
Print Assumptions C43_id.
Print Assumptions C43_roundtrip.
Print Assumptions C43_point_id_refuted.
Print Assumptions C43_streams.
Print Assumptions C43_stray_file_refuted.
Print Assumptions C43_lost_file_refuted.
Print Assumptions C43_config_guess.
Print Assumptions C43_config_named.
Print Assumptions C43_config_path_refuted.
Print Assumptions C43_view.
