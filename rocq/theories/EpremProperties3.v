(** * C43: points by text, bare names, extensions, and all the observers of a
    dataset together *)
From Coq Require Import Permutation.
From Verif Require Import PyBase PyLemmas ContainerModel ContainerProofs2 FsModel SymbolicModel ParameterModel ConfigSpec ConfigProofs EpremModel EpremProperties EpremProperties2.

(** ** Texts that are integers *)
(** Blanks, an optional sign, at least one digit, blanks. *)
Definition integer_text (x : str) (z : Z) : Prop :=
  exists a sign ds b, x = a ++ sign ++ ds ++ b /\ blank a /\ blank b /\ ds <> [] /\ Forall (fun c => is_digit c = true) ds /\
    (sign = s "-" /\ z = Z.opp (Z.of_N (N_of_str ds)) \/ (sign = [] \/ sign = s "+") /\ z = Z.of_N (N_of_str ds)).
Lemma sign_cases c : is_sign c = true -> c = "-"%char \/ c = "+"%char.
Proof. unfold is_sign. rewrite orb_true_iff, !Ascii.eqb_eq. tauto. Qed.
Lemma digit_solid c : is_digit c = true -> is_space c = false.
Proof. intros D. apply digit_cases in D. tauto. Qed.
Lemma last_in {A} (l : list A) d : l <> [] -> In (last l d) l.
Proof.
  induction l as [|a l IH]; [congruence|]. intros _. destruct l as [|b l]; [left; reflexivity|]. right. apply IH. discriminate.
Qed.
Lemma strip_solid a y b : blank a -> blank b -> y <> [] -> (forall c, In c y -> is_space c = false) -> strip (a ++ y ++ b) = y.
Proof.
  intros A B NE S. symmetry. apply trimmed_strip. exists a, b. split; [reflexivity|]. split; [exact A|]. split; [exact B|].
  destruct y as [|c y]; [congruence|]. split; [apply S; left; reflexivity|]. apply S. apply last_in. discriminate.
Qed.
Theorem C43_text_number x z : z_of_text x = Ok z <-> integer_text x z.
Proof.
  split.
  - unfold z_of_text. destruct (strip_trimmed x) as (a & b & E & A & B & _). destruct (strip x) as [|c y] eqn:S; [discriminate|].
    cbn [unsigned]. destruct (is_sign c) eqn:G.
    + destruct y as [|d y']; [discriminate|]. destruct (forallb is_digit (d :: y')) eqn:F; [|discriminate]. intros H. injection H as <-.
      exists a, [c], (d :: y'), b. split; [exact E|]. split; [exact A|]. split; [exact B|]. split; [discriminate|].
      split; [apply Forall_forall; apply forallb_forall; exact F|]. destruct (sign_cases c G) as [->| ->]; [left|right]; (split; [|reflexivity]); [reflexivity|right; reflexivity].
    + destruct (forallb is_digit (c :: y)) eqn:F; [|discriminate]. intros H. injection H as <-.
      assert (M : Ascii.eqb c "-" = false). { unfold is_sign in G. apply orb_false_iff in G. tauto. } rewrite M.
      exists a, [], (c :: y), b. split; [exact E|]. split; [exact A|]. split; [exact B|]. split; [discriminate|].
      split; [apply Forall_forall; apply forallb_forall; exact F|]. right. split; [left; reflexivity|reflexivity].
  - intros (a & sg & ds & b & -> & A & B & NE & D & V). unfold z_of_text.
    assert (SG : sg = [] \/ sg = s "-" \/ sg = s "+") by (destruct V as [[-> _]|[[->| ->] _]]; auto).
    assert (F : forallb is_digit ds = true) by (apply forallb_forall; apply Forall_forall; exact D).
    rewrite app_assoc with (l := sg). rewrite strip_solid; [|exact A|exact B| |].
    + destruct ds as [|d ds]; [congruence|]. pose proof (Forall_inv D) as Dd. apply digit_cases in Dd as (_ & _ & _ & _ & M & P & _).
      assert (G : is_sign d = false) by (unfold is_sign; apply orb_false_iff; split; apply Ascii.eqb_neq; assumption).
      destruct V as [[-> ->]|[[->| ->] ->]].
      * cbn [s list_ascii_of_string app unsigned]. change (is_sign "-") with true. cbn iota. rewrite F. reflexivity.
      * cbn [app unsigned]. rewrite G, F. apply Ascii.eqb_neq in M. rewrite M. reflexivity.
      * cbn [s list_ascii_of_string app unsigned]. change (is_sign "+") with true. cbn iota. rewrite F. reflexivity.
    + intros E. apply app_eq_nil in E as [_ E]. contradiction.
    + intros c I. apply in_app_iff in I as [I|I].
      * destruct SG as [->|[->| ->]]; [destruct I| |]; destruct I as [<-|[]]; reflexivity.
      * apply digit_solid. exact (proj1 (Forall_forall _ _) D c I).
Qed.
(** Every other text is a ValueError. *)
Theorem C43_text_not_number x : (forall z, ~ integer_text x z) -> z_of_text x = Raise ValueError.
Proof.
  intros N. destruct (z_of_text x) as [z|e] eqn:E; [exfalso; exact (N z (proj1 (C43_text_number x z) E))|].
  revert E. unfold z_of_text. destruct (unsigned (strip x)) as [|c y]; [intros H; injection H as <-; reflexivity|].
  destruct (forallb is_digit (c :: y)); [discriminate|]. intros H; injection H as <-; reflexivity.
Qed.

(** ** Ids that are texts, and other ids *)
Section Open.
Variable resolve : str -> option str.
Variable config : confarg.
(** The text of a number stands for the number or for a file of that name. *)
Theorem C43_point_text order name z listing x conf :
  Permutation order [s "point"; s "p_obs"] -> literal name -> integer_text name z -> NoDup listing ->
  only listing (fun y => (exists prefix number rest, In prefix [s "point"; s "p_obs"] /\ written 3 z number /\ y = prefix ++ number ++ s "." ++ rest) \/
                         exists rest, y = name ++ s "." ++ rest) x ->
  build_confpath resolve listing config = Ok conf ->
  open_point resolve order (IdStr name) (Directory listing) config = Ok {| l_data := x; l_conf := conf |}.
Proof using.
  intros PE L Z ND O C. unfold open_point. cbn [point_patterns]. rewrite (proj2 (C43_text_number name z) Z). cbn [bind create_observer].
  rewrite (datapath_only _ listing x ND); [cbn [bind]; rewrite C; reflexivity|]. revert O. apply only_iff. intros y.
  rewrite <- (C43_point_names z y), <- (numbered_spec point_prefixes order 3 z y PE) by (intros p I; apply prefixes_literal, in_app_iff; auto).
  rewrite <- (wild_dot name y L). split.
  - intros [(p & I & W)|W]; [exists p; split; [apply in_app_iff; left; exact I|exact W]|]. exists (name ++ s ".*"). split; [apply in_app_iff; right; left; reflexivity|exact W].
  - intros (p & I & W). apply in_app_iff in I as [I|[<-|[]]]; [left; eauto|right; exact W].
Qed.
(** ... and a file of the number is preferred to a file of that name. *)
Theorem C43_point_text_first order name z listing x conf :
  Permutation order [s "point"; s "p_obs"] -> literal name -> integer_text name z -> NoDup listing ->
  only listing (fun y => exists prefix number rest, In prefix [s "point"; s "p_obs"] /\ written 3 z number /\ y = prefix ++ number ++ s "." ++ rest) x ->
  build_confpath resolve listing config = Ok conf ->
  open_point resolve order (IdStr name) (Directory listing) config = Ok {| l_data := x; l_conf := conf |}.
Proof using.
  intros PE L Z ND O C. unfold open_point. cbn [point_patterns]. rewrite (proj2 (C43_text_number name z) Z). cbn [bind create_observer].
  assert (P : build_datapath (map (fun prefix => prefix ++ pad 3 z ++ s ".*") order) listing = Ok x).
  { apply datapath_only; [exact ND|]. revert O. apply only_iff. intros y.
    rewrite (numbered_spec point_prefixes order 3 z y PE) by (intros p I; apply prefixes_literal, in_app_iff; auto). symmetry. apply C43_point_names. }
  assert (X : forall ps qs, build_datapath ps listing = Ok x -> build_datapath (ps ++ qs) listing = Ok x).
  { clear. induction ps as [|p ps IH]; intros qs; [discriminate|]. cbn [app build_datapath]. destruct (matching listing p) as [|y [|y' m]]; auto. }
  rewrite (X _ _ P). cbn [bind]. rewrite C. reflexivity.
Qed.
(** [observer] with the text of a number opens a file of kind [p_obs], or one
    of that name. *)
Theorem C43_observer_text order name z listing x conf :
  literal name -> integer_text name z -> NoDup listing ->
  only listing (fun y => (exists number rest, written 3 z number /\ y = s "p_obs" ++ number ++ s "." ++ rest) \/ exists rest, y = name ++ s "." ++ rest) x ->
  build_confpath resolve listing config = Ok conf ->
  open_observer resolve order (IdStr name) (Directory listing) config = Ok (KPoint, {| l_data := x; l_conf := conf |}).
Proof using.
  intros L Z ND O C. unfold open_observer. cbn [observer_patterns]. rewrite (proj2 (C43_text_number name z) Z). cbn [bind snd fst create_observer].
  rewrite (datapath_only _ listing x ND); [cbn [bind]; rewrite C; reflexivity|]. revert O. apply only_iff. intros y.
  assert (PL : literal (s "p_obs" ++ pad 3 z)).
  { intros c J. apply in_app_iff in J as [J|J]; [|exact (pad_literal 3 z c J)]. apply (prefixes_literal (s "p_obs")); [cbn; tauto|exact J]. }
  rewrite <- (wild_dot name y L). split.
  - intros [(n & r & W & ->)|W].
    + rewrite (C43_number_unique 3 z n W). exists (s "p_obs" ++ pad 3 z ++ s ".*"). split; [left; reflexivity|].
      rewrite app_assoc. apply (wild_dot _ _ PL). exists r. rewrite <- app_assoc. reflexivity.
    + exists (name ++ s ".*"). split; [right; left; reflexivity|exact W].
  - intros (p & [<-|[<-|[]]] & W); [left|right; exact W]. rewrite app_assoc in W. apply (wild_dot _ _ PL) in W as (r & ->).
    exists (pad 3 z), r. split; [apply C43_number|]. rewrite <- app_assoc. reflexivity.
Qed.
(** A stream has a number; a point has a number or a name. *)
Theorem C43_other_ids order src name :
  open_stream resolve order (IdStr name) src config = Raise TypeError /\ open_stream resolve order IdOther src config = Raise TypeError /\
  open_point resolve order IdOther src config = Raise TypeError /\ open_observer resolve order IdOther src config = Raise TypeError.
Proof using. repeat split. Qed.
(** A source that is missing or no directory is an error, whatever the id. *)
Theorem C43_source order id src : src = Missing \/ src = NotDirectory -> id <> IdOther ->
  let e := if match src with Missing => true | _ => false end then OtherError "NonExistentPathError" else OtherError "SourcePathError" in
  open_point resolve order id src config = Raise e /\ open_observer resolve order id src config = Raise e /\
  forall z, open_stream resolve order (IdInt z) src config = Raise e.
Proof using. intros [->| ->] N; destruct id; try congruence; repeat split. Qed.
End Open.
Example C43_point_text_case :
  integer_text (s "7") 7 /\ integer_text (s " +012 ") 12 /\ integer_text (s "-3") (-3) /\
  open_point (fun _ => None) [s "point"; s "p_obs"] (IdStr (s "7")) (Directory [s "p_obs007.nc"; s "eprem.cfg"]) CNone
    = Ok {| l_data := s "p_obs007.nc"; l_conf := InDirectory (s "eprem.cfg") |} /\
  open_observer (fun _ => None) [] (IdStr (s "7")) (Directory [s "7.nc"; s "eprem.cfg"]) CNone
    = Ok (KPoint, {| l_data := s "7.nc"; l_conf := InDirectory (s "eprem.cfg") |}).
Proof.
  split; [apply C43_text_number; reflexivity|]. split; [apply C43_text_number; reflexivity|]. split; [apply C43_text_number; reflexivity|].
  split; vm_compute; reflexivity.
Qed.

(** ** The configuration file *)
(** A bare name: one component of a path. *)
Definition bare (x : str) : Prop := ~ In "/"%char x /\ x <> [] /\ x <> s ".".
Lemma is_name_bare x : is_name x = true <-> bare x.
Proof.
  unfold is_name, bare. rewrite !andb_true_iff, !negb_true_iff, !str_eqb_neq. split.
  - intros [[A B] C]. split; [|auto]. intros I. assert (X : existsb (Ascii.eqb "/") x = true) by (apply existsb_exists; exists "/"%char; auto). congruence.
  - intros (A & B & C). split; [split; [|exact B]|exact C]. destruct (existsb (Ascii.eqb "/") x) eqn:X; [|reflexivity].
    apply existsb_exists in X as (c & I & E). apply Ascii.eqb_eq in E. subst c. contradiction.
Qed.
(** A bare text names a file of the source directory; any other text, and any
    path object, is a path from the current directory. *)
Theorem C43_config_text resolve listing x :
  (bare x -> In x listing -> build_confpath resolve listing (CText x) = Ok (InDirectory x)) /\
  (bare x -> ~ In x listing -> build_confpath resolve listing (CText x) = Raise ValueError) /\
  (~ bare x -> build_confpath resolve listing (CText x) = build_confpath resolve listing (CPath x)) /\
  (forall p, resolve x = Some p -> build_confpath resolve listing (CPath x) = Ok (Elsewhere p)) /\
  (resolve x = None -> build_confpath resolve listing (CPath x) = Raise (OtherError "NonExistentPathError")).
Proof.
  destruct (C43_config_named resolve listing x) as (A & B & C). split; [|split; [|split; [|split]]].
  - intros N. apply A, is_name_bare, N.
  - intros N. apply B, is_name_bare, N.
  - intros N. cbn [build_confpath]. destruct (is_name x) eqn:X; [exfalso; apply N, is_name_bare, X|reflexivity].
  - intros p E. cbn [build_confpath]. rewrite E. reflexivity.
  - intros E. cbn [build_confpath]. rewrite E. reflexivity.
Qed.
Theorem C43_config_object_refuted listing x : bare x -> In x listing ->
  build_confpath (fun _ => None) listing (CText x) = Ok (InDirectory x) /\
  build_confpath (fun _ => None) listing (CPath x) = Raise (OtherError "NonExistentPathError").
Proof. intros N I. apply C43_config_path_refuted; [apply is_name_bare, N|exact I]. Qed.
Example C43_config_text_case : bare (s "run.cfg") /\ ~ bare (s "a/run.cfg") /\ ~ bare (s ".") /\ bare (s "..") /\
  build_confpath Some [s "run.cfg"] (CText (s "a/run.cfg")) = Ok (Elsewhere (s "a/run.cfg")) /\ build_confpath Some [] (CText (s ".")) = Ok (Elsewhere (s ".")).
Proof.
  rewrite <- !is_name_bare. repeat split; try reflexivity; discriminate.
Qed.

(** ** Extensions *)
(** A name is its stem followed by its suffix; the suffix is empty or a dot
    followed by characters without dots, and then the stem is not empty. *)
Theorem C43_extension x : x = stem x ++ suffix x /\
  (suffix x = [] \/ exists ext, suffix x = s "." ++ ext /\ ext <> [] /\ nodots ext /\ stem x <> []).
Proof.
  unfold stem, suffix. assert (D : forall x a b, last_dot x = Some (a, b) -> x = a ++ s "." ++ b /\ nodots b).
  { clear x. assert (N : forall x, last_dot x = None -> nodots x).
    { induction x as [|c x IH]; [intros _ []|]. cbn [last_dot]. destruct (last_dot x) as [[a b]|]; [discriminate|].
      destruct (Ascii.eqb c ".") eqn:E; [discriminate|]. intros _ [->|I]; [discriminate E|exact (IH eq_refl I)]. }
    induction x as [|c x IH]; intros a b; cbn [last_dot]; [discriminate|]. destruct (last_dot x) as [[a' b']|] eqn:L.
    - intros E. injection E as <- <-. destruct (IH a' b' eq_refl) as [-> H]. split; [reflexivity|exact H].
    - destruct (Ascii.eqb c ".") eqn:E; [|discriminate]. intros H. injection H as <- <-. apply Ascii.eqb_eq in E. subst c. split; [reflexivity|apply N, L]. }
  destruct (last_dot x) as [[a b]|] eqn:L; [|split; [rewrite app_nil_r; reflexivity|left; reflexivity]].
  destruct (D x a b L) as [E H]. destruct a as [|c a]; [split; [rewrite app_nil_r; reflexivity|left; reflexivity]|].
  destruct b as [|d b]; [split; [rewrite app_nil_r; reflexivity|left; reflexivity]|].
  split; [exact E|]. right. exists (d :: b). split; [reflexivity|]. split; [discriminate|]. split; [exact H|discriminate].
Qed.
(** A data file: a name that ends with [.nc] and is more than that. *)
Theorem C43_viewable x : viewable x = true <-> exists base, base <> [] /\ x = base ++ s ".nc".
Proof.
  unfold viewable. rewrite str_eqb_eq. split.
  - intros E. destruct (C43_extension x) as [X [F|(ext & F & _ & _ & N)]]; [rewrite F in E; discriminate E|]. exists (stem x). split; [exact N|]. rewrite E in X. exact X.
  - intros (base & N & ->). change (s ".nc") with (s "." ++ s "nc"). apply stem_one; [exact N|discriminate|]. intros [E|[E|[]]]; discriminate.
Qed.
Example C43_extension_case : stem (s "obs000001.nc") = s "obs000001" /\ suffix (s ".nc") = [] /\ suffix (s "a.") = [] /\ stem (s "a.b.nc") = s "a.b" /\
  viewable (s "obs000001.nc") = true /\ viewable (s "obs000001.nc.bak") = false /\ viewable (s ".nc") = false.
Proof. repeat split; reflexivity. Qed.

(** ** The points of a dataset, and all its observers *)
Definition numbered_files (prefixes : list str) (width : nat) (listing : list str) : Prop :=
  forall x p rest, In x listing -> suffix x = s ".nc" -> In p prefixes -> x = p ++ rest -> exists z, x = p ++ pad width z ++ s ".nc".
Definition one_file_each (prefixes : list str) (width : nat) (listing : list str) : Prop :=
  forall x y p q z, In x listing -> In y listing -> In p prefixes -> In q prefixes ->
    x = p ++ pad width z ++ s ".nc" -> y = q ++ pad width z ++ s ".nc" -> x = y.
(** If every data file whose name begins like that of a point has a number, and
    no two have the same, the dataset maps the padded numbers to the files. *)
Theorem C43_points order all listing :
  Permutation order point_prefixes -> Permutation all all_prefixes ->
  numbered_files [s "point"; s "p_obs"] 3 listing -> one_file_each [s "point"; s "p_obs"] 3 listing ->
  exists m, observer_map order all listing = Ok m /\
    forall k x, lookup obskey_eqb m k = Ok x <->
      exists p z, k = KeyStr (pad 3 z) /\ In x listing /\ In p [s "point"; s "p_obs"] /\ x = p ++ pad 3 z ++ s ".nc".
Proof.
  intros PO PA WF UN. fold point_prefixes in *. change [s "point"; s "p_obs"] with point_prefixes in *.
  assert (L : forall p, In p point_prefixes -> literal p) by (intros p I; apply prefixes_literal, in_app_iff; auto).
  assert (ID : forall p z, In p point_prefixes -> get_observer_id all (p ++ pad 3 z ++ s ".nc") = Ok (KeyStr (pad 3 z))).
  { intros p z I. change (s ".nc") with (s "." ++ s "nc"). rewrite (C43_id all p 3 z (s "nc") PA); [|apply in_app_iff; auto|discriminate|].
    - assert (X : existsb (str_eqb p) stream_prefixes = false) by (destruct I as [<-|[<-|[]]]; reflexivity). rewrite X. reflexivity.
    - intros [E|[E|[]]]; discriminate. }
  assert (SF : forall p z, In p point_prefixes -> suffix (p ++ pad 3 z ++ s ".nc") = s ".nc").
  { intros p z I. change (s ".nc") with (s "." ++ s "nc"). rewrite app_assoc. apply stem_one; [|discriminate|intros [E|[E|[]]]; discriminate].
    destruct (pad_head_free p 3 z) as (c & u & P & _); [apply in_app_iff; auto|]. rewrite P. intros E. apply app_eq_nil in E as [_ E]. discriminate. }
  destruct (mapM_pairs (get_observer_id all) (observer_files order listing)) as (ps & E & P).
  { intros x I. apply (files_in order point_prefixes listing x PO L) in I as (I & S & p & r & Ip & X). destruct (WF x p r I S Ip X) as (z & ->). exists (KeyStr (pad 3 z)). apply ID, Ip. }
  unfold observer_map. rewrite E. cbn [bind]. eexists. split; [reflexivity|].
  assert (SP : forall k x, In (k, x) ps <-> exists p z, k = KeyStr (pad 3 z) /\ In x listing /\ In p point_prefixes /\ x = p ++ pad 3 z ++ s ".nc").
  { intros k x. rewrite P. rewrite (files_in order point_prefixes listing x PO L). split.
    - intros [(I & S & p & r & Ip & X) K]. destruct (WF x p r I S Ip X) as (z & ->). exists p, z. rewrite (ID p z Ip) in K. inversion K. auto.
    - intros (p & z & -> & I & Ip & ->). split; [|apply ID, Ip]. split; [exact I|]. split; [apply SF, Ip|]. eauto. }
  intros k x. rewrite <- SP. destruct (dict_of_in ps) as [D1 D2]. split; [apply D1|]. intros I.
  destruct (D2 k x I) as (y & Ly). rewrite Ly. f_equal. apply D1 in Ly. apply SP in Ly as (q & z' & K' & Iy & Iq & Ey). apply SP in I as (p & z & K & Ix & Ip & Ex).
  rewrite K in K'. injection K' as K'. assert (z = z') by (pose proof (pad_text 3 z) as U; rewrite K', pad_text in U; congruence). subst z'.
  exact (UN y x q p z Iy Ix Iq Ip Ey Ex).
Qed.
Lemma lookup_in_pairs {V} (m : list (obskey * V)) k v : lookup obskey_eqb m k = Ok v -> In (k, v) m.
Proof.
  induction m as [|[k' v'] m IH]; cbn [lookup]; [discriminate|]. destruct (obskey_eqb k' k) eqn:E; [|intros H; right; exact (IH H)].
  apply obskey_decides in E. subst k'. intros H. injection H as ->. left. reflexivity.
Qed.
Lemma put_nodup {V} (d : list (obskey * V)) k v : NoDup (map fst d) -> NoDup (map fst (dict_put obskey_eqb d k v)).
Proof.
  induction d as [|[k' v'] d IH]; cbn [dict_put map fst]; [intros _; constructor; [intros []|constructor]|].
  intros N. inversion N as [|? ? N1 N2]; subst. destruct (obskey_eqb k' k) eqn:E; cbn [map fst]; [apply obskey_decides in E; subst k'; constructor; assumption|].
  constructor; [|apply IH, N2]. intros I. apply (dict_put_keys obskey_eqb obskey_decides) in I as [I| ->]; [contradiction|].
  rewrite (proj2 (obskey_decides k k) eq_refl) in E. discriminate.
Qed.
Lemma dict_lookup {V} (l : list (obskey * V)) k v : In (k, v) (dict_of obskey_eqb l) -> lookup obskey_eqb (dict_of obskey_eqb l) k = Ok v.
Proof.
  apply (lookup_in obskey_eqb obskey_decides). unfold dict_of.
  assert (G : forall d, NoDup (map fst d) -> NoDup (map fst (fold_left (fun d (kv : obskey * V) => dict_put obskey_eqb d (fst kv) (snd kv)) l d))).
  { induction l as [|kv l IH]; intros d N; [exact N|]. cbn [fold_left]. apply IH, put_nodup, N. }
  apply G. constructor.
Qed.
(** The observers of a dataset are its streams and its points. *)
Theorem C43_observers so po all listing a b :
  observer_map so all listing = Ok a -> observer_map po all listing = Ok b ->
  (forall k x, In (k, x) a -> exists z, k = KeyInt z) -> (forall k x, In (k, x) b -> exists t, k = KeyStr t) ->
  exists m, dataset_observers so po all listing = Ok m /\
    forall k x, lookup obskey_eqb m k = Ok x <-> lookup obskey_eqb a k = Ok x \/ lookup obskey_eqb b k = Ok x.
Proof.
  intros A B KA KB. unfold dataset_observers. rewrite A, B. cbn [bind]. eexists. split; [reflexivity|].
  assert (DA : forall k x, In (k, x) a -> lookup obskey_eqb a k = Ok x).
  { revert A. unfold observer_map. destruct (mapM _ _) as [ps|e]; [|discriminate]. cbn [bind]. intros H. injection H as <-. apply dict_lookup. }
  assert (DB : forall k x, In (k, x) b -> lookup obskey_eqb b k = Ok x).
  { revert B. unfold observer_map. destruct (mapM _ _) as [ps|e]; [|discriminate]. cbn [bind]. intros H. injection H as <-. apply dict_lookup. }
  destruct (dict_of_in (a ++ b)) as [D1 D2]. intros k x. split.
  - intros H. apply D1, in_app_iff in H as [H|H]; [left; apply DA, H|right; apply DB, H].
  - intros H. assert (I : In (k, x) (a ++ b)) by (apply in_app_iff; destruct H as [H|H]; apply lookup_in_pairs in H; auto).
    destruct (D2 k x I) as (y & Y). rewrite Y. apply D1, in_app_iff in Y. destruct H as [H|H], Y as [Y|Y].
    + apply DA in Y. congruence.
    + apply lookup_in_pairs in H. destruct (KA k x H) as (z & ->). destruct (KB _ y Y) as (t & E). discriminate.
    + apply lookup_in_pairs in H. destruct (KB k x H) as (t & ->). destruct (KA _ y Y) as (z & E). discriminate.
    + apply DB in Y. congruence.
Qed.
(** In a directory whose data files all have their numbers, every stream and
    every numbered point is found. *)
Theorem C43_dataset so po all listing :
  Permutation so stream_prefixes -> Permutation po point_prefixes -> Permutation all all_prefixes ->
  numbered_files [s "stream"; s "obs"; s "flux"] 6 listing -> one_file_each [s "stream"; s "obs"; s "flux"] 6 listing ->
  numbered_files [s "point"; s "p_obs"] 3 listing -> one_file_each [s "point"; s "p_obs"] 3 listing ->
  exists m, dataset_observers so po all listing = Ok m /\
    forall k x, lookup obskey_eqb m k = Ok x <->
      (exists p z, k = KeyInt z /\ In x listing /\ In p [s "stream"; s "obs"; s "flux"] /\ x = p ++ pad 6 z ++ s ".nc") \/
      (exists p z, k = KeyStr (pad 3 z) /\ In x listing /\ In p [s "point"; s "p_obs"] /\ x = p ++ pad 3 z ++ s ".nc").
Proof.
  intros PS PP PA W1 U1 W2 U2. destruct (C43_streams so all listing PS PA W1 U1) as (a & A & SA). destruct (C43_points po all listing PP PA W2 U2) as (b & B & SB).
  assert (DA : forall k x, In (k, x) a -> lookup obskey_eqb a k = Ok x).
  { revert A. unfold observer_map. destruct (mapM _ _) as [ps|e]; [|discriminate]. cbn [bind]. intros H. injection H as <-. apply dict_lookup. }
  assert (DB : forall k x, In (k, x) b -> lookup obskey_eqb b k = Ok x).
  { revert B. unfold observer_map. destruct (mapM _ _) as [ps|e]; [|discriminate]. cbn [bind]. intros H. injection H as <-. apply dict_lookup. }
  destruct (C43_observers so po all listing a b A B) as (m & M & SM).
  - intros k x I. apply DA, SA in I as (p & z & -> & _). eauto.
  - intros k x I. apply DB, SB in I as (p & z & -> & _). eauto.
  - exists m. split; [exact M|]. intros k x. rewrite SM, SA, SB. reflexivity.
Qed.
(** Refuted: a numbered point does not have the number but the padded text as
    its key, unlike a stream. *)
Theorem C43_point_key_refuted :
  dataset_observers stream_prefixes point_prefixes all_prefixes demo_listing
    = Ok [(KeyInt 7, s "obs000007.nc"); (KeyInt 12, s "flux000012.nc"); (KeyStr (s "003"), s "p_obs003.nc")].
Proof. vm_compute. reflexivity. Qed.
Example C43_dataset_case :
  numbered_files [s "stream"; s "obs"; s "flux"] 6 demo_listing /\ one_file_each [s "stream"; s "obs"; s "flux"] 6 demo_listing /\
  numbered_files [s "point"; s "p_obs"] 3 demo_listing /\ one_file_each [s "point"; s "p_obs"] 3 demo_listing.
Proof.
  assert (T : forall (l : list str) (x : str), In x l -> forall Q : str -> Prop, Forall Q l -> Q x) by (intros l x I Q F; exact (proj1 (Forall_forall _ _) F x I)).
  split; [|split; [|split]].
  - intros x p r I S Ip E. unfold demo_listing in I. cbn [In] in I, Ip.
    repeat (destruct I as [<-|I]; [try discriminate S; repeat (destruct Ip as [<-|Ip]; [try discriminate E; first [exists 7%Z; reflexivity|exists 12%Z; reflexivity]|]); destruct Ip|]). destruct I.
  - intros x y p q z I J Ip Iq E F. assert (O : observer_file stream_prefixes 6 z x) by (exists p, (s "nc"); split; [exact Ip|rewrite E; reflexivity]).
    assert (O' : observer_file stream_prefixes 6 z y) by (exists q, (s "nc"); split; [exact Iq|rewrite F; reflexivity]).
    assert (O7 : observer_file stream_prefixes 6 7 (s "obs000007.nc")) by (exists (s "obs"), (s "nc"); split; [right; left; reflexivity|reflexivity]).
    assert (O12 : observer_file stream_prefixes 6 12 (s "flux000012.nc")) by (exists (s "flux"), (s "nc"); split; [right; right; left; reflexivity|reflexivity]).
    assert (C : forall w, In w demo_listing -> observer_file stream_prefixes 6 z w -> w = s "obs000007.nc" \/ w = s "flux000012.nc").
    { clear. intros w I (p & r & Ip & E). unfold demo_listing in I. unfold stream_prefixes in Ip. cbn [In] in I, Ip.
      repeat (destruct I as [<-|I]; [auto; repeat (destruct Ip as [<-|Ip]; [discriminate E|]); destruct Ip|]). destruct I. }
    destruct (C x I O) as [->| ->], (C y J O') as [->| ->]; try reflexivity.
    + pose proof (C43_distinct _ _ _ O O7). pose proof (C43_distinct _ _ _ O' O12). lia.
    + pose proof (C43_distinct _ _ _ O O12). pose proof (C43_distinct _ _ _ O' O7). lia.
  - intros x p r I S Ip E. unfold demo_listing in I. cbn [In] in I, Ip.
    repeat (destruct I as [<-|I]; [try discriminate S; repeat (destruct Ip as [<-|Ip]; [try discriminate E; exists 3%Z; reflexivity|]); destruct Ip|]). destruct I.
  - intros x y p q z I J Ip Iq E F. unfold demo_listing in I, J. cbn [In] in I, J, Ip, Iq.
    assert (C : forall w o, In w demo_listing -> In o [s "point"; s "p_obs"] -> w = o ++ pad 3 z ++ s ".nc" -> w = s "p_obs003.nc").
    { clear. intros w o I Io E. unfold demo_listing in I. cbn [In] in I, Io.
      repeat (destruct I as [<-|I]; [auto; repeat (destruct Io as [<-|Io]; [discriminate E|]); destruct Io|]). destruct I. }
    rewrite (C x p I Ip E), (C y q J Iq F). reflexivity.
Qed.
Print Assumptions C43_text_number.
Print Assumptions C43_text_not_number.
Print Assumptions C43_point_text.
Print Assumptions C43_point_text_first.
Print Assumptions C43_observer_text.
Print Assumptions C43_other_ids.
Print Assumptions C43_source.
Print Assumptions C43_config_text.
Print Assumptions C43_config_object_refuted.
Print Assumptions C43_extension.
Print Assumptions C43_viewable.
Print Assumptions C43_points.
Print Assumptions C43_observers.
Print Assumptions C43_dataset.
Print Assumptions C43_point_key_refuted.
