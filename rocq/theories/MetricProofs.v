(** * Proofs about string conversions *)
From Verif Require Import PyBase PyLemmas SymbolicModel ContainerModel ContainerSpec ContainerProofs ContainerProofs2 MetricModel MetricSpec.

Section Scales.
Set Default Proof Using "Type".
Variable S : scales.
Hypothesis L : scale_laws S.
Notation N := (num S).
Lemma m_assoc (a b c : N) : mul a (mul b c) = mul (mul a b) c. Proof using L. apply L. Qed.
Lemma m_comm (a b : N) : mul a b = mul b a. Proof using L. apply L. Qed.
Lemma m_1l (a : N) : mul one a = a. Proof using L. apply L. Qed.
Lemma m_1r (a : N) : mul a one = a. Proof using L. rewrite m_comm. apply L. Qed.
Lemma m_inv (a : N) : mul a (inv a) = one. Proof using L. apply L. Qed.
Lemma m_invl (a : N) : mul (inv a) a = one. Proof using L. rewrite m_comm. apply L. Qed.
Lemma m_cancel (a b c : N) : mul a b = mul a c -> b = c.
Proof using L. intros H. rewrite <- (m_1l b), <- (m_1l c), <- (m_invl a), <- !m_assoc, H. reflexivity. Qed.
Lemma inv_unique (a b : N) : mul a b = one -> b = inv a.
Proof using L. intros H. apply (m_cancel a). rewrite m_inv. exact H. Qed.
Lemma inv_inv (a : N) : inv (inv a) = a.
Proof using L. symmetry. apply inv_unique, m_invl. Qed.
Lemma inv_one : inv (one : N) = one.
Proof using L. symmetry. apply inv_unique, m_1l. Qed.
Lemma m_swap (a b c d : N) : mul (mul a b) (mul c d) = mul (mul a c) (mul b d).
Proof using L. rewrite <- !m_assoc, (m_assoc b c d), (m_comm b c), <- m_assoc. reflexivity. Qed.
Lemma inv_mul (a b : N) : inv (mul a b) = mul (inv a) (inv b).
Proof using L. symmetry. apply inv_unique. rewrite m_swap, !m_inv. apply m_1l. Qed.
Lemma over_self (a : N) : over a a = one. Proof using L. apply m_inv. Qed.
Lemma over_inv (a b : N) : inv (over a b) = over b a.
Proof using L. unfold over. rewrite inv_mul, inv_inv. apply m_comm. Qed.
Lemma over_chain (a b c : N) : mul (over a b) (over b c) = over a c.
Proof using L. unfold over. rewrite <- m_assoc, (m_assoc (inv b)), m_invl, m_1l. reflexivity. Qed.
Lemma over_back (a b : N) : mul (over a b) b = a.
Proof using L. unfold over. rewrite <- m_assoc, m_invl. apply m_1r. Qed.
Lemma pw_0 (a : N) : pw a 0%Qc = one.
Proof using L. apply (m_cancel (pw a 0%Qc)). rewrite <- (pw_add S L), m_1r. f_equal. Qed.
Lemma pw_opp (a : N) q : pw a (- q)%Qc = inv (pw a q).
Proof using L. apply inv_unique. rewrite <- (pw_add S L). replace (q + - q)%Qc with 0%Qc by ring. apply pw_0. Qed.
Lemma one_pw q : pw (one : N) q = one.
Proof using L. rewrite <- (pw_0 one), (pw_mul S L). f_equal. ring. Qed.
Lemma pw_over (a b : N) q : pw (over a b) q = over (pw a q) (pw b q).
Proof using L.
  unfold over. rewrite (pw_dist S L). f_equal. apply inv_unique. rewrite <- (pw_dist S L), m_inv. apply one_pw.
Qed.
Lemma ten_over p q : over (pw (ten : N) (zq p)) (pw ten (zq q)) = pw ten (zq (p - q)).
Proof using L.
  unfold over. rewrite <- pw_opp, <- (pw_add S L). f_equal. rewrite zq_opp, zq_add. f_equal. 
Qed.
End Scales.

Lemma edge_eqb_spec a b : edge_eqb a b = true <-> a = b.
Proof.
  unfold edge_eqb. destruct a as [a1 a2], b as [b1 b2]. cbn. rewrite andb_true_iff, !str_eqb_eq. split; [intros (-> & ->); reflexivity|]. intros [= -> ->]. auto.
Qed.
Lemma conv_get_in S c e w : conv_get S c e = Some w -> In (e, w) c.
Proof.
  induction c as [|(e', w') c IH]; cbn; [discriminate|]. destruct (edge_eqb e' e) eqn:E; [|auto]. apply edge_eqb_spec in E as ->. intros [= ->]. auto.
Qed.
Lemma conv_get_some S c e w : In (e, w) c -> exists w', conv_get S c e = Some w'.
Proof.
  induction c as [|(e', w') c IH]; cbn; [contradiction|]. intros [[= -> ->]|H].
  - exists w. rewrite (proj2 (edge_eqb_spec e e) eq_refl). reflexivity.
  - destruct (edge_eqb e' e); eauto.
Qed.
Lemma first_some_in {A B} (f : A -> option B) l y : first_some f l = Some y -> exists x, In x l /\ f x = Some y.
Proof. induction l as [|x l IH]; cbn; [discriminate|]. destruct (f x) eqn:E; [intros [= <-]; eauto|]. intros H. destruct (IH H) as (z & H1 & H2). eauto. Qed.

Section Strings.
Set Default Proof Using "Type".
Variable S : scales.
Hypothesis L : scale_laws S.
Variable named : str -> option nunit.
Variable conv : list ((str * str) * num S).
Variable order : list str.
Variable size : str -> num S.
Hypothesis F : fits S named conv size.
Notation ov := (over (S := S)).

Lemma alias_size u a : In a (aliases_of named u) -> size a = size u.
Proof using F.
  unfold aliases_of. destruct (named u) as [n|] eqn:E; cbn; [intros [<-|[<-|[<-|[]]]]|intros [<-|[]]]; [reflexivity| | |reflexivity].
  - exact (fits_symbol _ _ _ _ F u n E).
  - exact (fits_name _ _ _ _ F u n E).
Qed.
Lemma search_sound u v w : search S named conv u v = Some w -> w = ov (size u) (size v).
Proof using F.
  unfold search. destruct conv_get as [w'|] eqn:E.
  - intros [= <-]. apply (fits_conv _ _ _ _ F). eapply conv_get_in, E.
  - intros H. apply first_some_in in H as (x & Hx & H). apply first_some_in in H as (y & Hy & H). apply conv_get_in in H.
    apply (fits_conv _ _ _ _ F) in H. rewrite H. f_equal; apply alias_size; assumption.
Qed.
Lemma ratio_sound u v n m r : named u = Some n -> named v = Some m -> ratio S n m = Ok r -> r = ov (size u) (size v).
Proof using F L.
  intros Hu Hv. unfold ratio. destruct (nunit_eq m n) eqn:E.
  - intros [= <-]. unfold nunit_eq in E. apply andb_true_iff in E as (P & B).
    rewrite (fits_prefix _ _ _ _ F u v n m Hu Hv).
    + unfold same_prefix in P. rewrite !andb_true_iff, Z.eqb_eq in P. destruct P as (_ & ->). symmetry. apply (over_self S L).
    + unfold same_base in *. rewrite !andb_true_iff, !str_eqb_eq in *. intuition congruence.
  - destruct (same_base m n) eqn:B; cbn [negb]; [|discriminate]. intros [= <-]. symmetry. apply (fits_prefix _ _ _ _ F u v n m Hu Hv).
    unfold same_base in *. rewrite !andb_true_iff, !str_eqb_eq in *. intuition congruence.
Qed.
Lemma simple_sound u v w : simple_conversion S named conv u v = Some w -> w = ov (size u) (size v).
Proof using F L.
  unfold simple_conversion. destruct (str_eqb u v) eqn:E; [apply str_eqb_eq in E as ->; intros [= <-]; symmetry; apply (over_self S L)|].
  destruct search eqn:Q; [intros [= <-]; apply search_sound, Q|].
  destruct (named u) as [n|] eqn:Hu; [|discriminate]. destruct (named v) as [m|] eqn:Hv; [|discriminate].
  destruct ratio eqn:R; [|discriminate]. intros [= <-]. eapply ratio_sound; eassumption.
Qed.
Lemma rescale_sound u v w : rescale S named conv order u v = Some w -> w = ov (size u) (size v).
Proof using F L.
  unfold rescale. destruct (named u) as [n|] eqn:Hu; [|discriminate]. intros H. apply first_some_in in H as (x & _ & H).
  destruct (named x) as [m|] eqn:Hx; [|discriminate]. destruct same_base; [|discriminate].
  destruct search eqn:Q; [|discriminate]. destruct ratio eqn:R; [|discriminate]. injection H as <-.
  apply search_sound in Q as ->. rewrite (ratio_sound u x _ _ _ Hu Hx R). apply (over_chain S L).
Qed.
Lemma standard_sound u v w : standard_conversion S named conv order u v = Some w -> w = ov (size u) (size v).
Proof using F L.
  unfold standard_conversion. destruct simple_conversion eqn:E; [intros [= <-]; apply simple_sound, E|].
  unfold rescale_conversion. destruct (if mem str_eqb u _ then _ else _) eqn:E1.
  - intros [= <-]. destruct mem; [discriminate|]. apply rescale_sound, E1.
  - destruct (if mem str_eqb v _ then _ else _) eqn:E2; [|discriminate]. intros [= <-]. destruct (mem str_eqb v _); [discriminate|].
    apply rescale_sound in E2 as ->. apply (over_inv S L).
Qed.
Lemma adjacent u x w : In (x, w) (adjacencies S conv u) <-> In ((u, x), w) conv.
Proof.
  unfold adjacencies. rewrite in_map_iff. split.
  - intros (((u', x'), w') & E & H). cbn in E. injection E as -> ->. apply filter_In in H as (H & E). cbn in E. apply str_eqb_eq in E as ->. exact H.
  - intros H. exists ((u, x), w). split; [reflexivity|]. apply filter_In. split; [exact H|]. apply str_eqb_refl.
Qed.

(** the loop over neighbours, named for the proofs *)
Fixpoint explore (rc : list str -> str -> result (list str * option (num S))) (checked : list str) (adj : list (str * num S)) : result (list str * option (num S)) :=
  match adj with
  | [] => Ok (checked, None)
  | (unit, weight) :: adj' =>
      cr <- rc checked unit ;;
      match snd cr with
      | Some value => Ok (fst cr, Some (mul weight value))
      | None => explore rc (fst cr) adj'
      end
  end.
Lemma rc_unfold fuel checked u v :
  recursive_conversion S named conv order (Datatypes.S fuel) checked u v =
  if mem str_eqb u checked then Ok (checked, None)
  else match standard_conversion S named conv order u v with
       | Some w => Ok (checked ++ [u], Some w)
       | None => explore (fun c x => recursive_conversion S named conv order fuel c x v) (checked ++ [u]) (adjacencies S conv u)
       end.
Proof.
  cbn [recursive_conversion]. destruct mem; [reflexivity|]. destruct standard_conversion; [reflexivity|].
  generalize (adjacencies S conv u) as adj, (checked ++ [u]) as c. intros adj. induction adj as [|(x, w) adj IH]; intros c; cbn [explore]; [reflexivity|].
  destruct recursive_conversion as [(c', [f|])|]; cbn [bind fst snd]; [reflexivity|apply IH|reflexivity].
Qed.
Lemma recursive_sound fuel : forall checked u v c w,
  recursive_conversion S named conv order fuel checked u v = Ok (c, Some w) -> w = ov (size u) (size v).
Proof using F L.
  induction fuel as [|fuel IH]; [discriminate|]. intros checked u v c w. rewrite rc_unfold. destruct mem; [discriminate|].
  destruct standard_conversion eqn:E; [intros [= _ <-]; apply standard_sound, E|]. clear E.
  assert (A : forall x r, In (x, r) (adjacencies S conv u) -> r = ov (size u) (size x)).
  { intros x r H. apply adjacent in H. apply (fits_conv _ _ _ _ F _ _ _ H). }
  revert A. generalize (adjacencies S conv u) as adj, (checked ++ [u]) as c0. intros adj. induction adj as [|(x, r) adj IHa]; intros c0 A; cbn [explore]; [discriminate|].
  destruct (recursive_conversion S named conv order fuel c0 x v) as [(c1, [f|])|] eqn:R; cbn [bind fst snd]; [|apply IHa; intros; apply A; right; assumption|discriminate].
  intros [= _ <-]. apply IH in R as ->. rewrite (A x r (or_introl eq_refl)). apply (over_chain S L).
Qed.
Lemma strings_sound u v w : convert_as_strings S named conv order u v = Ok (Some w) -> w = ov (size u) (size v).
Proof using F L.
  unfold convert_as_strings. destruct recursive_conversion as [(c, o)|] eqn:E; cbn [bind snd]; [|discriminate]. intros [= ->]. eapply recursive_sound, E.
Qed.
End Strings.

Lemma mem_str x l : mem str_eqb x l = true <-> In x l.
Proof. exact (mem_spec str_eqb str_decides x l). Qed.
Lemma mem_str_false x l : mem str_eqb x l = false <-> ~ In x l.
Proof. rewrite <- mem_str. destruct mem; split; congruence. Qed.
Definition left_over (l c : list str) : nat := length (filter (fun x => negb (mem str_eqb x c)) l).
Lemma left_over_le l c c' : (forall x, In x c -> In x c') -> left_over l c' <= left_over l c.
Proof.
  intros H. unfold left_over. induction l as [|x l IH]; cbn; [lia|].
  destruct (mem str_eqb x c) eqn:E; cbn.
  - apply mem_str, H, mem_str in E. rewrite E. cbn. exact IH.
  - destruct (mem str_eqb x c'); cbn; lia.
Qed.
Lemma left_over_lt l c x : In x l -> ~ In x c -> left_over l (c ++ [x]) < left_over l c.
Proof.
  intros Hx Nx. unfold left_over. induction l as [|y l IH]; [contradiction|]. cbn.
  assert (LE : left_over l (c ++ [x]) <= left_over l c) by (apply left_over_le; intros z Hz; apply in_app_iff; auto). unfold left_over in LE.
  destruct (str_eqb y x) eqn:E.
  - apply str_eqb_eq in E as ->. rewrite (proj2 (mem_str x (c ++ [x]))) by (apply in_app_iff; cbn; auto).
    rewrite (proj2 (mem_str_false x c) Nx). cbn. lia.
  - assert (Hl : In x l) by (destruct Hx as [->|]; [rewrite str_eqb_refl in E; discriminate|assumption]). specialize (IH Hl).
    assert (M : mem str_eqb y (c ++ [x]) = mem str_eqb y c).
    { destruct (mem str_eqb y c) eqn:Q; [apply mem_str; apply mem_str in Q; apply in_app_iff; auto|].
      apply mem_str_false. apply mem_str_false in Q. rewrite in_app_iff. cbn. intros [?|[<-|[]]]; [contradiction|]. rewrite str_eqb_refl in E. discriminate. }
    rewrite M. destruct (mem str_eqb y c); cbn; lia.
Qed.
Lemma left_over_bound l c : left_over l c <= length l.
Proof. unfold left_over. induction l as [|x l IH]; cbn; [lia|]. destruct negb; cbn; lia. Qed.
(** ** Termination of the search *)
Section Search.
Set Default Proof Using "Type".
Variable S : scales.
Variable named : str -> option nunit.
Variable conv : list ((str * str) * num S).
Variable order : list str.
Notation rc := (recursive_conversion S named conv order).

Lemma adj_node u x w : In (x, w) (adjacencies S conv u) -> In u (conv_nodes S conv) /\ In x (conv_nodes S conv).
Proof.
  intros H. apply adjacent in H. unfold conv_nodes. split; apply in_flat_map; exists ((u, x), w); cbn; auto.
Qed.
(** with enough fuel the search ends; [checked] only grows; if nothing is
    found, everything newly checked has no standard conversion and all its
    neighbours have been checked *)
Definition settled (v : str) (c c' : list str) : Prop :=
  forall x, In x c' -> ~ In x c -> standard_conversion S named conv order x v = None /\ forall y w, In (y, w) (adjacencies S conv x) -> In y c'.
Lemma search_ends fuel : forall c u v, left_over (conv_nodes S conv) c < fuel ->
  exists c' o, rc fuel c u v = Ok (c', o) /\ (forall x, In x c -> In x c') /\ In u c' /\ (o = None -> settled v c c').
Proof.
  induction fuel as [|fuel IH]; [lia|]. intros c u v Hf. rewrite rc_unfold.
  destruct (mem str_eqb u c) eqn:M.
  { apply mem_str in M. exists c, None. split; [reflexivity|]. repeat split; auto; contradiction. }
  apply mem_str_false in M. destruct standard_conversion as [w|] eqn:E.
  { exists (c ++ [u]), (Some w). split; [reflexivity|]. split; [intros; apply in_app_iff; auto|]. split; [apply in_app_iff; cbn; auto|discriminate]. }
  assert (G : forall adj c0, (forall x w, In (x, w) adj -> In x (conv_nodes S conv) /\ In u (conv_nodes S conv)) -> (forall x, In x (c ++ [u]) -> In x c0) ->
     exists c' o, explore S (fun c x => rc fuel c x v) c0 adj = Ok (c', o) /\ (forall x, In x c0 -> In x c') /\ (o = None -> settled v c0 c' /\ forall y w, In (y, w) adj -> In y c')).
  { induction adj as [|(x, w) adj IHa]; intros c0 A Hc0; cbn [explore].
    - exists c0, None. split; [reflexivity|]. split; [auto|]. intros _. split; [intros y Hy Ny; contradiction|intros y w []].
    - destruct (A x w (or_introl eq_refl)) as (Hx & Hu).
      assert (Hf' : left_over (conv_nodes S conv) c0 < fuel).
      { pose proof (left_over_lt _ c u Hu M). pose proof (left_over_le (conv_nodes S conv) _ c0 Hc0). lia. }
      destruct (IH c0 x v Hf') as (c1 & o & R & H1 & H2 & H3). rewrite R. cbn [bind fst snd]. destruct o as [f|].
      + exists c1, (Some (mul w f)). split; [reflexivity|]. split; [exact H1|discriminate].
      + destruct (IHa c1) as (c2 & o2 & R2 & K1 & K2); [intros; eapply A; right; eassumption|auto|].
        exists c2, o2. split; [exact R2|]. split; [auto|]. intros ->. destruct (K2 eq_refl) as (K3 & K4). split.
        * intros y Hy Ny. destruct (mem str_eqb y c1) eqn:Q.
          -- apply mem_str in Q. destruct (H3 eq_refl y Q Ny) as (Z1 & Z2). split; [exact Z1|]. intros z w' Hz. apply K1. eapply Z2, Hz.
          -- apply mem_str_false in Q. exact (K3 y Hy Q).
        * intros y w' [[= <- <-]|Hy]; [apply K1, H2|eapply K4, Hy]. }
  destruct (G (adjacencies S conv u) (c ++ [u])) as (c' & o & R & H1 & H2); [intros x w H; apply adj_node in H; tauto|auto|].
  rewrite R. exists c', o. split; [reflexivity|]. split; [intros; apply H1, in_app_iff; auto|]. split; [apply H1, in_app_iff; cbn; auto|].
  intros ->. destruct (H2 eq_refl) as (K1 & K2). intros y Hy Ny. destruct (str_eq_dec y u) as [->|D]; [split; [exact E|exact K2]|].
  apply K1; [exact Hy|]. rewrite in_app_iff. cbn. intros [?|[?|[]]]; [contradiction|congruence].
Qed.
Lemma strings_total u v : exists o, convert_as_strings S named conv order u v = Ok o.
Proof.
  unfold convert_as_strings. destruct (search_ends (2 + length (conv_nodes S conv)) [] u v) as (c & o & R & _).
  - pose proof (left_over_bound (conv_nodes S conv) []). lia.
  - rewrite R. cbn [bind snd]. eauto.
Qed.
Lemma strings_complete u x v : reach conv u x -> standard_conversion S named conv order x v <> None ->
  exists w, convert_as_strings S named conv order u v = Ok (Some w).
Proof.
  intros Re Hx. unfold convert_as_strings. destruct (search_ends (2 + length (conv_nodes S conv)) [] u v) as (c & o & R & _ & Hu & St).
  { pose proof (left_over_bound (conv_nodes S conv) []). lia. }
  rewrite R. cbn [bind snd]. destruct o as [w|]; [eauto|]. exfalso. specialize (St eq_refl). apply Hx.
  assert (In x c).
  { clear Hx R. induction Re as [u|u y x w H Re IH]; [exact Hu|]. apply IH. apply (proj2 (St u Hu (fun K => K))) with (w := w). apply adjacent, H. }
  apply (St x H (fun K => K)).
Qed.
Lemma simple_refl u : simple_conversion S named conv u u = Some one.
Proof. unfold simple_conversion. rewrite str_eqb_refl. reflexivity. Qed.
Lemma standard_base u v n m : named u = Some n -> named v = Some m -> same_base n m = true -> standard_conversion S named conv order u v <> None.
Proof.
  intros Hu Hv B. unfold standard_conversion, simple_conversion. destruct str_eqb; [discriminate|]. destruct search; [discriminate|]. rewrite Hu, Hv.
  unfold ratio. destruct nunit_eq; [discriminate|].
  assert (same_base m n = true) as -> by (unfold same_base in *; rewrite !andb_true_iff, !str_eqb_eq in *; intuition congruence). discriminate.
Qed.
End Search.
