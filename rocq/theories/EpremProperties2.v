(** * C43: the names of observer files and the choice of a configuration file,
    spelled out *)
From Verif Require Import PyBase PyLemmas ContainerModel FsModel SymbolicModel ParameterModel EpremModel EpremProperties.

(** ** The number in a file name *)
(** The text of a number in decimal digits: a minus sign for negative numbers,
    zeros up to the width, then the digits, of which the first is not zero
    unless the width asks for it. *)
Definition written (width : nat) (z : Z) (x : str) : Prop :=
  exists sign ds, x = sign ++ ds /\ Forall (fun c => is_digit c = true) ds /\ ds <> [] /\
    ((z < 0)%Z /\ sign = s "-" \/ (0 <= z)%Z /\ sign = []) /\ Z.of_N (N_of_str ds) = Z.abs z /\
    length x = Nat.max width (length sign + length (str_of_N (Z.to_N (Z.abs z)))).
Theorem C43_number width z : written width z (pad width z).
Proof.
  assert (V : forall k n, N_of_str (zeros k ++ str_of_N n) = n).
  { intros k n. unfold N_of_str. rewrite zeros_val. change (0 * 10 ^ N.of_nat k)%N with 0%N. apply N_of_str_of_N. }
  assert (NE : forall k n, zeros k ++ str_of_N n <> []).
  { intros k n E. apply app_eq_nil in E as [_ E]. exact (str_of_N_nonempty n E). }
  assert (D : forall k n, Forall (fun c => is_digit c = true) (zeros k ++ str_of_N n)) by (intros; apply Forall_app; split; [apply zeros_digits|apply str_of_N_digits]).
  assert (L : forall k n, length (zeros (k - length (str_of_N n)) ++ str_of_N n) = Nat.max k (length (str_of_N n))).
  { intros k n. rewrite app_length. unfold zeros. rewrite repeat_length. lia. }
  destruct z as [|p|p]; cbn [pad Z.abs Z.to_N].
  - exists []. eexists. split; [reflexivity|]. split; [apply D|]. split; [apply NE|]. split; [right; split; [lia|reflexivity]|]. split; [rewrite V; reflexivity|]. apply (L width 0%N).
  - exists []. eexists. split; [reflexivity|]. split; [apply D|]. split; [apply NE|]. split; [right; split; [lia|reflexivity]|]. split; [rewrite V; reflexivity|]. apply (L width (Npos p)).
  - exists (s "-"). eexists. split; [reflexivity|]. split; [apply D|]. split; [apply NE|]. split; [left; split; [lia|reflexivity]|]. split; [rewrite V; reflexivity|].
    pose proof (L (width - 1) (Npos p)) as LL. pose proof (str_of_N_nonempty (Npos p)) as N0. change (length (s "-")) with 1.
    assert (N1 : length (str_of_N (Npos p)) <> 0) by (destruct (str_of_N (Npos p)); [congruence|discriminate]).
    change (s "-" ++ ?x) with ("-"%char :: x). change (length ("-"%char :: ?x)) with (S (length x)).
    change (Z.to_N (Z.abs (Z.neg p))) with (Npos p). lia.
Qed.
(** Two texts written for one number with one width are the same text. *)
Lemma digits_value_length : forall (a b : str) n m, Forall (fun c => is_digit c = true) a -> Forall (fun c => is_digit c = true) b ->
  length a = length b -> fold_left (fun a c => (10 * a + digit_val c)%N) a n = fold_left (fun a c => (10 * a + digit_val c)%N) b m ->
  n = m /\ a = b.
Proof.
  induction a as [|c a IH] using rev_ind; intros b n m DA DB L E.
  - destruct b; [|discriminate L]. auto.
  - destruct (rev b) as [|d b'] eqn:R.
    { assert (b = []) by (rewrite <- (rev_involutive b), R; reflexivity). subst b. rewrite app_length in L. cbn in L. lia. }
    assert (B : b = rev b' ++ [d]) by (rewrite <- (rev_involutive b), R; reflexivity). rewrite B in *. rewrite !fold_left_app in E. cbn [fold_left] in E.
    apply Forall_app in DA as [DA Dc]. apply Forall_app in DB as [DB Dd]. apply Forall_inv in Dc, Dd.
    assert (C : forall x, is_digit x = true -> (digit_val x < 10)%N) by (intros x; destruct x as [[] [] [] [] [] [] [] []]; vm_compute; intros X; try discriminate X; reflexivity).
    pose proof (C c Dc) as C1. pose proof (C d Dd) as C2.
    set (u := fold_left _ a n) in *. set (v := fold_left _ (rev b') m) in *.
    assert (u = v) by lia. assert (DV : digit_val c = digit_val d) by lia.
    rewrite !app_length in L. cbn [length] in L. destruct (IH (rev b') n m DA DB ltac:(lia) H) as [-> ->]. split; [reflexivity|]. f_equal. f_equal.
    clear - DV Dc Dd. revert DV. destruct c as [[] [] [] [] [] [] [] []]; vm_compute in Dc; try discriminate Dc; destruct d as [[] [] [] [] [] [] [] []]; vm_compute in Dd; try discriminate Dd; vm_compute; intros DV; congruence.
Qed.
Theorem C43_number_unique width z x : written width z x -> x = pad width z.
Proof.
  intros (sg & ds & -> & D & NE & SG & V & L). destruct (C43_number width z) as (sg' & ds' & E & D' & NE' & SG' & V' & L'). rewrite E in *.
  assert (sg = sg') by (destruct SG as [[? ->]|[? ->]], SG' as [[? ->]|[? ->]]; try reflexivity; lia). subst sg'.
  f_equal. rewrite app_length in L, L'. rewrite <- L' in L.
  destruct (digits_value_length ds ds' 0%N 0%N D D') as [_ Y]; [lia| |exact Y].
  assert (N_of_str ds = N_of_str ds') by (apply N2Z.inj; congruence). exact H.
Qed.
Example C43_number_example :
  pad 6 42 = s "000042" /\ pad 6 (-42) = s "-00042" /\ pad 3 12345 = s "12345" /\ pad 3 (-1) = s "-01" /\ pad 3 0 = s "000".
Proof. repeat split; reflexivity. Qed.
(** The files of a stream and of a point, in these terms. *)
Theorem C43_stream_names z x :
  observer_file stream_prefixes 6 z x <->
  exists prefix number rest, In prefix [s "stream"; s "obs"; s "flux"] /\ written 6 z number /\ x = prefix ++ number ++ s "." ++ rest.
Proof.
  split.
  - intros (p & r & I & ->). exists p, (pad 6 z), r. split; [exact I|]. split; [apply C43_number|reflexivity].
  - intros (p & n & r & I & W & ->). exists p, r. split; [exact I|]. rewrite (C43_number_unique 6 z n W). reflexivity.
Qed.
Theorem C43_point_names z x :
  observer_file point_prefixes 3 z x <->
  exists prefix number rest, In prefix [s "point"; s "p_obs"] /\ written 3 z number /\ x = prefix ++ number ++ s "." ++ rest.
Proof.
  split.
  - intros (p & r & I & ->). exists p, (pad 3 z), r. split; [exact I|]. split; [apply C43_number|reflexivity].
  - intros (p & n & r & I & W & ->). exists p, r. split; [exact I|]. rewrite (C43_number_unique 3 z n W). reflexivity.
Qed.
(** [observer] with a number opens a stream file of the kinds [obs] and [flux]. *)
Theorem C43_observer_number resolve config order z listing k l :
  (forall p, In p order <-> In p [s "obs"; s "flux"]) ->
  open_observer resolve order (IdInt z) (Directory listing) config = Ok (k, l) ->
  k = KStream /\ In (l_data l) listing /\
  exists prefix number rest, In prefix [s "obs"; s "flux"] /\ written 6 z number /\ l_data l = prefix ++ number ++ s "." ++ rest.
Proof.
  intros O. unfold open_observer. cbn [observer_patterns bind snd fst create_observer].
  destruct (build_datapath _ listing) as [x|e] eqn:B; [|discriminate]. cbn [bind].
  destruct (build_confpath resolve listing config) as [c|e]; [|discriminate]. cbn [bind]. intros E; injection E as <- <-. cbn [l_data].
  apply datapath_in in B as [I (p & J & W)]. split; [reflexivity|]. split; [exact I|]. apply in_map_iff in J as (q & <- & J). apply O in J.
  rewrite app_assoc in W. apply wild_dot in W as (r & ->).
  - exists q, (pad 6 z), r. split; [exact J|]. split; [apply C43_number|]. rewrite <- app_assoc. reflexivity.
  - intros ch Ic. apply in_app_iff in Ic as [Ic|Ic]; [|apply (pad_literal 6 z ch Ic)].
    assert (L : In q (stream_prefixes ++ point_prefixes)). { destruct J as [<-|[<-|[]]]; cbn; auto. }
    exact (prefixes_literal q L ch Ic).
Qed.

(** ** The configuration file *)
Definition ending (ext : string) (x : str) : Prop := exists r, x = r ++ s ext.
(** The first name of the listing with a property. *)
Definition first_such (P : str -> Prop) (listing : list str) (x : str) : Prop :=
  exists before after, listing = before ++ x :: after /\ P x /\ forall y, In y before -> ~ P y.
Definition none_such (P : str -> Prop) (listing : list str) : Prop := forall y, In y listing -> ~ P y.
Lemma wild_suffix ext x : literal (s ext) -> wildcard ("*"%char :: s ext) x = true <-> ending ext x.
Proof.
  intros L. assert (X : forall y, wildcard (s ext) y = true <-> y = s ext).
  { intros y. rewrite <- (app_nil_r (s ext)) at 1. rewrite (wild_lit (s ext) [] L y). split.
    - intros (r & -> & W). destruct r; [apply app_nil_r|discriminate].
    - intros ->. exists []. rewrite app_nil_r. auto. }
  change (wildcard ("*"%char :: s ext)) with (fix star (x : str) := wildcard (s ext) x || match x with [] => false | _ :: x' => star x' end).
  unfold ending. induction x as [|c x IH].
  - rewrite orb_false_r, X. split; [intros E; exists []; exact E|]. intros (r & E). symmetry in E. apply app_eq_nil in E as [_ E]. auto.
  - rewrite orb_true_iff, X, IH. split.
    + intros [E|(r & E)]; [exists []; exact E|exists (c :: r); rewrite E; reflexivity].
    + intros ([|d r] & E); [left; exact E|right]. cbn [app] in E. inversion E; subst. exists r. reflexivity.
Qed.
Lemma first_filter f (P : str -> Prop) listing : (forall x, f x = true <-> P x) ->
  match filter f listing with [] => none_such P listing | x :: _ => first_such P listing x end.
Proof.
  intros F. induction listing as [|a l IH]; [intros y []|]. cbn [filter]. destruct (f a) eqn:A.
  - exists [], l. split; [reflexivity|]. split; [apply F, A|intros y []].
  - assert (N : ~ P a) by (rewrite <- F; congruence). destruct (filter f l) as [|x m].
    + intros y [<-|I]; [exact N|exact (IH y I)].
    + destruct IH as (b & c & -> & PX & NB). exists (a :: b), c. split; [reflexivity|]. split; [exact PX|]. intros y [<-|I]; [exact N|exact (NB y I)].
Qed.
(** Without an argument: the file [eprem_input_file] if there is one; else the
    first [.cfg] file, else the first [.ini] file, else the first [.in] file;
    else a ValueError. *)
Theorem C43_config_default resolve listing :
  (In (s "eprem_input_file") listing /\ build_confpath resolve listing CNone = Ok (InDirectory (s "eprem_input_file"))) \/
  (~ In (s "eprem_input_file") listing /\
   ((exists x, first_such (ending ".cfg") listing x /\ build_confpath resolve listing CNone = Ok (InDirectory x)) \/
    (none_such (ending ".cfg") listing /\
     ((exists x, first_such (ending ".ini") listing x /\ build_confpath resolve listing CNone = Ok (InDirectory x)) \/
      (none_such (ending ".ini") listing /\
       ((exists x, first_such (ending ".in") listing x /\ build_confpath resolve listing CNone = Ok (InDirectory x)) \/
        (none_such (ending ".in") listing /\ build_confpath resolve listing CNone = Raise ValueError))))))).
Proof.
  assert (L : forall t, In t ["eprem_input_file"; ".cfg"; ".ini"; ".in"]%string -> literal (s t)).
  { intros t I c J. repeat (destruct I as [<-|I]; [cbn in J; repeat (destruct J as [<-|J]; [repeat split; discriminate|]); destruct J|]). destruct I. }
  assert (X : forall y, wildcard (s "eprem_input_file") y = true <-> y = s "eprem_input_file").
  { intros y. rewrite <- (app_nil_r (s "eprem_input_file")) at 1. rewrite (wild_lit _ [] (L _ (or_introl eq_refl)) y). split.
    - intros (r & -> & W). destruct r; [apply app_nil_r|discriminate].
    - intros ->. exists []. rewrite app_nil_r. auto. }
  cbn [build_confpath]. unfold config_names. cbn [guess_config]. unfold matching.
  pose proof (first_filter (wildcard (s "eprem_input_file")) (fun y => y = s "eprem_input_file") listing X) as F0.
  destruct (filter (wildcard (s "eprem_input_file")) listing) as [|x0 m0].
  2:{ left. destruct F0 as (b & a & -> & -> & _). split; [apply in_app_iff; right; left; reflexivity|reflexivity]. }
  right. split; [intros I; exact (F0 _ I eq_refl)|]. clear F0 X.
  pose proof (first_filter (wildcard (s "*.cfg")) (ending ".cfg") listing (fun x => wild_suffix ".cfg" x (L _ (or_intror (or_introl eq_refl))))) as F1.
  destruct (filter (wildcard (s "*.cfg")) listing) as [|x1 m1]; [|left; exists x1; auto]. right. split; [exact F1|]. clear F1.
  pose proof (first_filter (wildcard (s "*.ini")) (ending ".ini") listing (fun x => wild_suffix ".ini" x (L _ (or_intror (or_intror (or_introl eq_refl)))))) as F2.
  destruct (filter (wildcard (s "*.ini")) listing) as [|x2 m2]; [|left; exists x2; auto]. right. split; [exact F2|]. clear F2.
  pose proof (first_filter (wildcard (s "*.in")) (ending ".in") listing (fun x => wild_suffix ".in" x (L _ (or_intror (or_intror (or_intror (or_introl eq_refl))))))) as F3.
  destruct (filter (wildcard (s "*.in")) listing) as [|x3 m3]; [|left; exists x3; auto]. right. split; [exact F3|reflexivity].
Qed.
Example C43_config_example :
  build_confpath (fun _ => None) [s "a.ini"; s "b.cfg"; s "c.cfg"; s "eprem_input_file"] CNone = Ok (InDirectory (s "eprem_input_file")) /\
  build_confpath (fun _ => None) [s "a.ini"; s "b.cfg"; s "c.cfg"] CNone = Ok (InDirectory (s "b.cfg")) /\
  build_confpath (fun _ => None) [s "a.in"; s "a.ini"] CNone = Ok (InDirectory (s "a.ini")) /\
  build_confpath (fun _ => None) [s "notes.txt"] CNone = Raise ValueError.
Proof. repeat split; reflexivity. Qed.
Print Assumptions C43_number.
Print Assumptions C43_number_unique.
Print Assumptions C43_stream_names.
Print Assumptions C43_point_names.
Print Assumptions C43_observer_number.
Print Assumptions C43_config_default.
