(** * Properties of views of datafiles over time (C86) *)
From Verif Require Import PyBase PyLemmas ContainerModel ContainerSpec ContainerProofs ContainerProofs2 EpremModel DatafileModel DatafileProperties ViewModel.

(** ** Vocabulary *)
(** what one file says about a property *)
Definition says (d : datafile) (k : vprop) (x : vvalue) : Prop :=
  match k, x with
  | VArrays, ArraysAre l => view_arrays d = Ok l
  | VScalars, ScalarsAre l => view_scalars d = Ok l
  | VAxes, AxesAre l => view_axes d = Ok l
  | VSizes, SizesAre l => view_sizes d = Ok l
  | VUnits, UnitsAre l => view_units d = Ok l
  | _, _ => False
  end.
(** the file cannot be read for this property, for this reason *)
Definition refuses (d : datafile) (k : vprop) (e : exn) : Prop :=
  match k with
  | VArrays => view_arrays d = Raise e | VScalars => view_scalars d = Raise e | VAxes => view_axes d = Raise e
  | VSizes => view_sizes d = Raise e | VUnits => view_units d = Raise e
  end.
Definition file_at (st : vstate) (p : fpath) (c : option datafile) : Prop := lookup fpath_eqb (on_disk st) p = Ok c.
Definition no_file (st : vstate) (p : fpath) : Prop := forall c, ~ file_at st p c.
(** what a view of [p] gives now *)
Definition gives (st : vstate) (p : fpath) (k : vprop) : result vvalue := fst (read_view st p k).
Definition after_reading (st : vstate) (p : fpath) (k : vprop) : vstate := snd (read_view st p k).
Definition reads_path (p : fpath) (e : vevent) : Prop := exists k, e = ReadProp p k.

(** no view of this path has been asked for *)
Definition never_asked (p : fpath) (l : list vevent) : Prop := forall hint, ~ In (Asked p hint) l.

Lemma path_decides : decides fpath_eqb.
Proof. intros a b. unfold fpath_eqb. apply (list_eqb_spec str_eqb str_decides). Qed.

(** ** One view *)
Definition agrees {A} (known : option A) (read : datafile -> result A) (o : option datafile) : Prop := forall x, known = Some x -> exists d, o = Some d /\ read d = Ok x.
Definition coherent (v : vobject) : Prop :=
  agrees (w_arrays v) view_arrays (w_viewer v) /\ agrees (w_scalars v) view_scalars (w_viewer v) /\ agrees (w_axes v) view_axes (w_viewer v) /\
  agrees (w_sizes v) view_sizes (w_viewer v) /\ agrees (w_units v) view_units (w_viewer v).
(** the view [v] became [w]: the same view, of the same file once it is open *)
Definition continues (v w : vobject) : Prop := w_id w = w_id v /\ w_hint w = w_hint v /\ forall d, w_viewer v = Some d -> w_viewer w = Some d.
(** the file that a view opens *)
Definition opens (disk : vdisk) (p : fpath) (v : vobject) (d : datafile) : Prop :=
  w_viewer v = Some d \/ w_viewer v = None /\ choose_viewer (last p []) (w_hint v) = Ok NetCDF /\ lookup fpath_eqb disk p = Ok (Some d).
Lemma open_ok disk p v d w : coherent v -> open_viewer disk p v = Ok (d, w) -> coherent w /\ continues v w /\ w_viewer w = Some d /\ opens disk p v d.
Proof.
  intros C. unfold open_viewer, opens. destruct (w_viewer v) as [d0|] eqn:W.
  - intros E. injection E as <- <-. split; [exact C|]. split; [split; [reflexivity|split; [reflexivity|auto]]|]. auto.
  - destruct (choose_viewer (last p []) (w_hint v)) as [[]|] eqn:H; [|discriminate]. cbn [bind]. destruct (lookup fpath_eqb disk p) as [[d0|]|] eqn:L; try discriminate. intros E. injection E as <- <-.
    split; [|split; [split; [reflexivity|split; [reflexivity|cbn; congruence]]|split; [reflexivity|right; auto]]].
    destruct C as (A & B & D & F & G). unfold coherent. cbn [w_arrays w_scalars w_axes w_sizes w_units w_viewer].
    assert (X : forall {T} (known : option T) read, agrees known read (w_viewer v) -> agrees known read (Some d0)) by (intros T kn rd Hk x Hx; destruct (Hk x Hx) as (d & Hd & _); congruence).
    rewrite <- W in A, B, D, F, G || idtac. split; [|split; [|split; [|split]]]; apply X; assumption.
Qed.
Lemma open_fails disk p v e : open_viewer disk p v = Raise e -> w_viewer v = None /\ forall d, ~ opens disk p v d.
Proof.
  unfold open_viewer, opens. destruct (w_viewer v) as [d0|]; [discriminate|]. intros H. split; [reflexivity|]. intros d [X|(_ & C & L)]; [discriminate|]. rewrite C in H. cbn [bind] in H. rewrite L in H. discriminate.
Qed.
Lemma opens_ok disk p v d : opens disk p v d -> exists w, open_viewer disk p v = Ok (d, w).
Proof.
  unfold open_viewer, opens. intros [->|(-> & C & L)]; [eexists; reflexivity|]. rewrite C. cbn [bind]. rewrite L. eexists. reflexivity.
Qed.
Lemma from_ok {A} disk p v (known : option A) read store r w : coherent v -> agrees known read (w_viewer v) ->
  (forall u x, w_viewer (store u x) = w_viewer u /\ w_id (store u x) = w_id u /\ w_hint (store u x) = w_hint u) ->
  (forall u x, coherent u -> agrees (Some x) read (w_viewer u) -> coherent (store u x)) ->
  from_viewer disk p v known read store = (r, w) ->
  coherent w /\ continues v w /\ (forall d, opens disk p v d -> r = read d /\ w_viewer w = Some d) /\ ((forall d, ~ opens disk p v d) -> w = v /\ exists e, r = Raise e) /\
  (forall x, r = Ok x -> exists d, opens disk p v d /\ read d = Ok x).
Proof.
  intros C K S1 S2. unfold from_viewer. destruct known as [x|].
  - intros E. injection E as <- <-. destruct (K x eq_refl) as (d & W & R). split; [exact C|]. split; [split; [reflexivity|split; [reflexivity|auto]]|]. split; [|split].
    + intros d' [W'|(W' & _)]; [|congruence]. assert (d' = d) as -> by congruence. split; [symmetry; exact R|exact W].
    + intros N. exfalso. apply (N d). left. exact W.
    + intros y E. injection E as <-. exists d. split; [left; exact W|exact R].
  - destruct (open_viewer disk p v) as [(d & v')|e] eqn:O.
    + destruct (open_ok disk p v d v' C O) as (C' & T & W & P).
      assert (U : forall d', opens disk p v d' -> d' = d) by (intros d' Q; destruct (opens_ok _ _ _ _ Q) as (w' & Q'); congruence).
      destruct (read d) as [x|e] eqn:R; intros E; injection E as <- <-.
      * destruct (S1 v' x) as (A1 & A2 & A3). split; [apply S2; [exact C'|]; intros y E; injection E as <-; exists d; auto|].
        split; [destruct T as (T1 & T2 & T3); split; [congruence|split; [congruence|rewrite A1; exact T3]]|]. split; [|split].
        -- intros d' Q. rewrite (U d' Q), R, A1. auto.
        -- intros N. exfalso. exact (N d P).
        -- intros y E. injection E as <-. exists d. auto.
      * split; [exact C'|]. split; [exact T|]. split; [|split].
        -- intros d' Q. rewrite (U d' Q), R. auto.
        -- intros N. exfalso. exact (N d P).
        -- intros y E. discriminate E.
    + intros E. injection E as <- <-. destruct (open_fails _ _ _ _ O) as (W & N). split; [exact C|]. split; [split; [reflexivity|split; [reflexivity|auto]]|]. split; [|split].
      * intros d P. exfalso. exact (N d P).
      * intros _. split; [reflexivity|]. exists e. reflexivity.
      * intros y E. discriminate E.
Qed.
Ltac stores := let C := fresh in let A := fresh in intros ? ? C A; destruct C as (? & ? & ? & ? & ?); (split; [|split; [|split; [|split]]]); cbn [w_arrays w_scalars w_axes w_sizes w_units w_viewer store_arrays store_scalars store_axes store_sizes store_units]; assumption.
(** what reading gives: what the open file says *)
Lemma read_ok disk p v k r w : coherent v -> read_object disk p v k = (r, w) ->
  coherent w /\ continues v w /\ (forall d, opens disk p v d -> w_viewer w = Some d /\ (forall x, says d k x -> r = Ok x) /\ forall e, refuses d k e -> r = Raise e) /\
  ((forall d, ~ opens disk p v d) -> w = v /\ exists e, r = Raise e) /\ (forall x, r = Ok x -> exists d, opens disk p v d /\ says d k x).
Proof.
  intros C. assert (C0 := C). destruct C as (A & B & D & F & G).
  assert (FIN : forall {T} (f : T -> vvalue) (read : datafile -> result T) (q : result T * vobject),
    (forall d x, says d k x <-> exists y, x = f y /\ read d = Ok y) -> (forall d e, refuses d k e <-> read d = Raise e) ->
    (coherent (snd q) /\ continues v (snd q) /\ (forall d, opens disk p v d -> fst q = read d /\ w_viewer (snd q) = Some d) /\ ((forall d, ~ opens disk p v d) -> snd q = v /\ exists e, fst q = Raise e) /\
    (forall x, fst q = Ok x -> exists d, opens disk p v d /\ read d = Ok x)) -> tag f q = (r, w) ->
    coherent w /\ continues v w /\ (forall d, opens disk p v d -> w_viewer w = Some d /\ (forall x, says d k x -> r = Ok x) /\ forall e, refuses d k e -> r = Raise e) /\
    ((forall d, ~ opens disk p v d) -> w = v /\ exists e, r = Raise e) /\ (forall x, r = Ok x -> exists d, opens disk p v d /\ says d k x)).
  { intros T f read (q1 & q2) Sy Rf (P1 & P2 & P3 & P4 & P5) E. cbn [fst snd] in *. unfold tag in E. cbn [fst snd] in E. injection E as <- <-. split; [exact P1|]. split; [exact P2|]. split; [|split].
    - intros d O. destruct (P3 d O) as (-> & W). split; [exact W|]. split; [intros x X; apply Sy in X as (y & -> & ->); reflexivity|intros e X; apply Rf in X; rewrite X; reflexivity].
    - intros N. destruct (P4 N) as (W & e & ->). split; [exact W|]. exists e. reflexivity.
    - intros x X. destruct q1 as [y|]; [|discriminate]. injection X as <-. destruct (P5 y eq_refl) as (d & O & R). exists d. split; [exact O|]. apply Sy. exists y. auto. }
  assert (AX : coherent (snd (read_axes disk p v)) /\ continues v (snd (read_axes disk p v)) /\ (forall d, opens disk p v d -> fst (read_axes disk p v) = view_axes d /\ w_viewer (snd (read_axes disk p v)) = Some d) /\
     ((forall d, ~ opens disk p v d) -> snd (read_axes disk p v) = v /\ exists e, fst (read_axes disk p v) = Raise e) /\ (forall x, fst (read_axes disk p v) = Ok x -> exists d, opens disk p v d /\ view_axes d = Ok x)).
  { apply (from_ok disk p v (w_axes v) view_axes store_axes); [exact C0|exact D|intros; repeat split|stores|apply surjective_pairing]. }
  unfold read_object. destruct k.
  - apply (FIN _ ArraysAre view_arrays); [intros d [] ; cbn; split; intros H; try (destruct H as (? & H & ?); discriminate H); try contradiction; [eauto|destruct H as (y & E & H); injection E as <-; exact H]|intros; reflexivity|].
    apply (from_ok disk p v (w_arrays v) view_arrays store_arrays); [exact C0|exact A|intros; repeat split|stores|apply surjective_pairing].
  - apply (FIN _ ScalarsAre view_scalars); [intros d [] ; cbn; split; intros H; try (destruct H as (? & H & ?); discriminate H); try contradiction; [eauto|destruct H as (y & E & H); injection E as <-; exact H]|intros; reflexivity|].
    apply (from_ok disk p v (w_scalars v) view_scalars store_scalars); [exact C0|exact B|intros; repeat split|stores|apply surjective_pairing].
  - apply (FIN _ AxesAre view_axes); [intros d [] ; cbn; split; intros H; try (destruct H as (? & H & ?); discriminate H); try contradiction; [eauto|destruct H as (y & E & H); injection E as <-; exact H]|intros; reflexivity|exact AX].
  - apply (FIN _ SizesAre view_sizes); [intros d [] ; cbn; split; intros H; try (destruct H as (? & H & ?); discriminate H); try contradiction; [eauto|destruct H as (y & E & H); injection E as <-; exact H]|intros; reflexivity|].
    unfold read_sizes. destruct (w_sizes v) as [x|] eqn:W.
    + cbn [fst snd]. destruct (F x eq_refl) as (d & V & R). split; [exact C0|]. split; [split; [reflexivity|split; [reflexivity|auto]]|]. split; [|split].
      * intros d' [V'|(V' & _)]; [|congruence]. assert (d' = d) as -> by congruence. split; [symmetry; exact R|exact V].
      * intros N. exfalso. apply (N d). left. exact V.
      * intros y E. injection E as <-. exists d. split; [left; exact V|exact R].
    + destruct (read_axes disk p v) as (q1 & q2). cbn [fst snd] in AX. destruct AX as (P1 & P2 & P3 & P4 & P5). destruct q1 as [x|e]; cbn [fst snd].
      * split; [|split; [|split; [|split]]].
        -- destruct P1 as (? & ? & ? & ? & ?). split; [assumption|]. split; [assumption|]. split; [assumption|]. split; [|assumption]. intros y E. cbn in E. injection E as <-.
           destruct (P5 x eq_refl) as (d & O & R). destruct (P3 d O) as (_ & V). exists d. auto.
        -- destruct P2 as (T1 & T2 & T3). split; [exact T1|split; [exact T2|exact T3]].
        -- intros d O. destruct (P3 d O) as (R & V). split; [exact R|exact V].
        -- intros N. destruct (P4 N) as (_ & e & E). discriminate E.
        -- exact P5.
      * split; [exact P1|]. split; [exact P2|]. split; [exact P3|]. split; [exact P4|exact P5].
  - apply (FIN _ UnitsAre view_units); [intros d [] ; cbn; split; intros H; try (destruct H as (? & H & ?); discriminate H); try contradiction; [eauto|destruct H as (y & E & H); injection E as <-; exact H]|intros; reflexivity|].
    apply (from_ok disk p v (w_units v) view_units store_units); [exact C0|exact G|intros; repeat split|stores|apply surjective_pairing].
Qed.

(** ** All views *)
Notation view_at st p v := (lookup fpath_eqb (views st) p = Ok v).
Definition sound_views (st : vstate) : Prop :=
  (forall p v, view_at st p v -> coherent v /\ w_id v < next_view st) /\ (forall p q v w, view_at st p v -> view_at st q w -> w_id v = w_id w -> p = q).
Lemma path_eqb_refl p : fpath_eqb p p = true. Proof. apply path_decides. reflexivity. Qed.
Lemma path_eqb_neq p q : p <> q -> fpath_eqb p q = false.
Proof. intros N. destruct (fpath_eqb p q) eqn:E; [apply path_decides in E; contradiction|reflexivity]. Qed.
Lemma lookup_append {V} (l : list (fpath * V)) p q v : lookup fpath_eqb l p = Raise KeyError -> lookup fpath_eqb (l ++ [(p, v)]) q = if fpath_eqb p q then Ok v else lookup fpath_eqb l q.
Proof.
  induction l as [|(k, w) l IH]; cbn; [reflexivity|]. intros H. destruct (fpath_eqb k p) eqn:E; [discriminate|]. rewrite (IH H). destruct (fpath_eqb k q) eqn:E2; [|reflexivity].
  apply path_decides in E2. subst q. destruct (fpath_eqb p k) eqn:E3; [|reflexivity]. apply path_decides in E3. subst p. rewrite path_eqb_refl in E. discriminate.
Qed.
Lemma lookup_raise {V} (l : list (fpath * V)) p e : lookup fpath_eqb l p = Raise e -> lookup fpath_eqb l p = Raise KeyError.
Proof. induction l as [|(k, w) l IH]; cbn; [reflexivity|]. destruct (fpath_eqb k p); [discriminate|exact IH]. Qed.
(** what an event does to the views *)
Lemma event_views st e : sound_views st -> sound_views (happen st e) /\ forall p v, view_at st p v -> exists w, view_at (happen st e) p w /\ continues v w /\ (~ reads_path p e -> w = v).
Proof.
  intros (I1 & I2). assert (SAME : forall p v, view_at st p v -> exists w, view_at st p w /\ continues v w /\ (~ reads_path p e -> w = v)) by (intros p v L; exists v; split; [exact L|]; split; [split; [reflexivity|split; [reflexivity|auto]]|reflexivity]).
  destruct e as [p c|p|p hint|p k]; cbn [happen].
  - split; [split; assumption|exact SAME].
  - split; [split; assumption|exact SAME].
  - unfold request_view. destruct (lookup fpath_eqb (on_disk st) p) as [c|]; cbn [snd]; [|split; [split; assumption|exact SAME]].
    destruct (lookup fpath_eqb (views st) p) as [v|e] eqn:L; cbn [snd]; [split; [split; assumption|exact SAME]|]. apply lookup_raise in L.
    assert (GET : forall q, lookup fpath_eqb (views st ++ [(p, new_view (next_view st) hint)]) q = if fpath_eqb p q then Ok (new_view (next_view st) hint) else lookup fpath_eqb (views st) q) by (intros q; apply lookup_append, L).
    split; [split|].
    + intros q v. cbn [views next_view]. rewrite GET. destruct (fpath_eqb p q) eqn:E.
      * intros X. injection X as <-. split; [|cbn; lia]. repeat split; intros x X; discriminate X.
      * intros X. destruct (I1 q v X). split; [assumption|lia].
    + intros q q' v w. cbn [views]. rewrite !GET. destruct (fpath_eqb p q) eqn:E, (fpath_eqb p q') eqn:E'.
      * apply path_decides in E, E'. intros _ _ _. congruence.
      * intros X Y H. injection X as <-. destruct (I1 q' w Y). cbn in H. lia.
      * intros X Y H. injection Y as <-. destruct (I1 q v X). cbn in H. lia.
      * apply I2.
    + intros q v H. exists v. cbn [views]. rewrite GET. destruct (fpath_eqb p q) eqn:E; [apply path_decides in E; subst q; congruence|]. split; [exact H|]. split; [split; [reflexivity|split; [reflexivity|auto]]|reflexivity].
  - unfold read_view. destruct (lookup fpath_eqb (views st) p) as [v|e] eqn:L; cbn [snd]; [|split; [split; assumption|exact SAME]].
    destruct (read_object (on_disk st) p v k) as (r & w) eqn:R. cbn [snd]. destruct (I1 p v L) as (C & N). destruct (read_ok _ _ _ _ _ _ C R) as (C' & T & _).
    assert (GET : forall q, lookup fpath_eqb (views (set_view st p w)) q = if fpath_eqb p q then Ok w else lookup fpath_eqb (views st) q) by (intros q; apply (dict_put_get fpath_eqb path_decides)).
    split; [split|].
    + intros q u. rewrite GET. cbn [next_view set_view]. destruct (fpath_eqb p q) eqn:E; [|apply I1]. intros X. injection X as <-. destruct T as (T & _). split; [exact C'|lia].
    + intros q q' u u'. rewrite !GET. destruct T as (T & _). destruct (fpath_eqb p q) eqn:E, (fpath_eqb p q') eqn:E'.
      * apply path_decides in E, E'. congruence.
      * intros X Y H. injection X as <-. apply path_decides in E. subst q. apply (I2 p q' v u' L Y). congruence.
      * intros X Y H. injection Y as <-. apply path_decides in E'. subst q'. apply (I2 q p u v X L). congruence.
      * apply I2.
    + intros q u H. rewrite GET. destruct (fpath_eqb p q) eqn:E.
      * apply path_decides in E. subst q. assert (u = v) as -> by congruence. exists w. split; [reflexivity|]. split; [exact T|]. intros X. exfalso. apply X. exists k. reflexivity.
      * exists u. split; [exact H|]. split; [split; [reflexivity|split; [reflexivity|auto]]|reflexivity].
Qed.
Lemma continues_trans a b c : continues a b -> continues b c -> continues a c.
Proof. intros (A & B & C) (A' & B' & C'). split; [congruence|]. split; [congruence|auto]. Qed.
Lemma history_views l : forall st, sound_views st -> sound_views (history_of st l) /\ forall p v, view_at st p v -> exists w, view_at (history_of st l) p w /\ continues v w /\ (Forall (fun e => ~ reads_path p e) l -> w = v).
Proof.
  induction l as [|e l IH]; intros st S; cbn [history_of fold_left].
  - split; [exact S|]. intros p v L. exists v. split; [exact L|]. split; [split; [reflexivity|split; [reflexivity|auto]]|reflexivity].
  - destruct (event_views st e S) as (S' & E). destruct (IH _ S') as (S'' & H). split; [exact S''|]. intros p v L. destruct (E p v L) as (w & Lw & T & U). destruct (H p w Lw) as (x & Lx & T' & U'). exists x.
    split; [exact Lx|]. split; [exact (continues_trans _ _ _ T T')|]. intros F. inversion F; subst. rewrite (U' H3). apply U. assumption.
Qed.
Lemma no_views_sound disk : sound_views (no_views disk).
Proof. split; [intros p v H|intros p q v w H]; discriminate H. Qed.
Lemma start_sound disk l : sound_views (history_of (no_views disk) l).
Proof. apply history_views, no_views_sound. Qed.
Lemma requested st p hint i : fst (request_view st p hint) = Ok i -> exists v, view_at (snd (request_view st p hint)) p v /\ w_id v = i /\
  (lookup fpath_eqb (views st) p = Ok v \/ lookup fpath_eqb (views st) p = Raise KeyError /\ v = new_view i hint).
Proof.
  unfold request_view. destruct (lookup fpath_eqb (on_disk st) p); [|discriminate]. destruct (lookup fpath_eqb (views st) p) as [v|e] eqn:L; cbn [fst snd]; intros E; injection E as <-.
  - exists v. split; [exact L|]. split; [reflexivity|]. left. reflexivity.
  - pose proof (lookup_raise _ _ _ L) as L'. eexists. cbn [views]. rewrite (lookup_append _ _ _ _ L'), path_eqb_refl. split; [reflexivity|]. split; [reflexivity|]. right. split; [congruence|reflexivity].
Qed.
Lemma unasked disk p l : never_asked p l -> lookup fpath_eqb (views (history_of (no_views disk) l)) p = Raise KeyError.
Proof.
  intros N. assert (K : forall st, lookup fpath_eqb (views st) p = Raise KeyError -> lookup fpath_eqb (views (history_of st l)) p = Raise KeyError); [|apply K; reflexivity].
  induction l as [|e l IH]; intros st V; [exact V|]. cbn [history_of fold_left]. apply IH; [intros h I; apply (N h); right; exact I|].
  destruct e as [q c|q|q h|q k]; cbn [happen]; try exact V.
  - unfold request_view. destruct (lookup fpath_eqb (on_disk st) q); [|exact V]. destruct (lookup fpath_eqb (views st) q) as [v|e] eqn:L; cbn [snd]; [exact V|].
    cbn [views]. rewrite (lookup_append _ _ _ _ (lookup_raise _ _ _ L)). destruct (fpath_eqb q p) eqn:E; [|exact V]. apply path_decides in E. subst q. exfalso. apply (N h). left. reflexivity.
  - unfold read_view. destruct (lookup fpath_eqb (views st) q) as [v|e] eqn:L; cbn [snd]; [|exact V]. destruct (read_object (on_disk st) q v k) as (r & w). cbn [snd]. unfold set_view. cbn [views].
    rewrite (dict_put_get fpath_eqb path_decides). destruct (fpath_eqb q p) eqn:E; [|exact V]. apply path_decides in E. subst q. congruence.
Qed.

(** ** Theorems *)
Section History.
(** anything that happened since the program started *)
Variables (disk : vdisk) (before : list vevent).
Notation now := (history_of (no_views disk) before).

(** At any two times, requests give the same view exactly if they are for the
    same path. *)
Theorem C86_one_view_per_path p q hint hint' later i j : fst (request_view now p hint) = Ok i ->
  fst (request_view (history_of (snd (request_view now p hint)) later) q hint') = Ok j -> (i = j <-> p = q).
Proof.
  intros A B. set (st1 := snd (request_view now p hint)) in *. assert (S1 : sound_views st1) by (exact (proj1 (event_views now (Asked p hint) (start_sound disk before)))).
  destruct (requested _ _ _ _ A) as (v & L & I & _). destruct (history_views later st1 S1) as (S2 & H). destruct (H p v L) as (w & Lw & (W & _) & _).
  destruct (requested _ _ _ _ B) as (u & Lu & J & _). destruct (event_views _ (Asked q hint') S2) as ((_ & I2) & K). destruct (K p w Lw) as (w' & Lw' & (W' & _) & _). cbn [happen] in *.
  split.
  - intros E. apply (I2 p q w' u Lw' Lu). congruence.
  - intros <-. rewrite Lw' in Lu. injection Lu as <-. congruence.
Qed.
(** A path that does not exist is refused, even if there is a view of it. *)
Theorem C86_missing p hint : (no_file now p <-> fst (request_view now p hint) = Raise (OtherError "NonExistentPathError")) /\ (no_file now p -> snd (request_view now p hint) = now).
Proof.
  unfold request_view, no_file, file_at. destruct (lookup fpath_eqb (on_disk now) p) as [c|e]; [|split; [split|]; try reflexivity; intros _ c E; discriminate E].
  split; [split|]; intros H; try (exfalso; exact (H c eq_refl)). exfalso. destruct (lookup fpath_eqb (views now) p); discriminate H.
Qed.
(** The first time that a view is read, it gives what the file says now, not what
    it said when the view was asked for. *)
Theorem C86_first_read p hint i later k d : never_asked p before -> fst (request_view now p hint) = Ok i -> Forall (fun e => ~ reads_path p e) later ->
  file_at (history_of (snd (request_view now p hint)) later) p (Some d) -> choose_viewer (last p []) hint = Ok NetCDF ->
  (forall x, says d k x -> gives (history_of (snd (request_view now p hint)) later) p k = Ok x) /\ (forall e, refuses d k e -> gives (history_of (snd (request_view now p hint)) later) p k = Raise e).
Proof.
  intros N A F D C. apply (unasked disk) in N. set (st1 := snd (request_view now p hint)) in *. assert (S1 : sound_views st1) by (exact (proj1 (event_views now (Asked p hint) (start_sound disk before)))).
  destruct (requested _ _ _ _ A) as (v & L & I & [X|(_ & ->)]); [congruence|]. destruct (history_views later st1 S1) as (S2 & H). destruct (H p _ L) as (w & Lw & _ & W). rewrite (W F) in Lw. clear W.
  unfold gives, read_view. rewrite Lw. destruct (read_object (on_disk (history_of st1 later)) p (new_view i hint) k) as (r & w') eqn:R. cbn [fst].
  destruct S2 as (S2 & _). destruct (read_ok _ _ _ _ _ _ (proj1 (S2 _ _ Lw)) R) as (_ & _ & G & _). destruct (G d) as (_ & G1 & G2); [right; split; [reflexivity|]; split; [exact C|exact D]|]. auto.
Qed.
(** A value that was read once never changes. *)
Theorem C86_stable p k x later : gives now p k = Ok x -> gives (history_of (after_reading now p k) later) p k = Ok x.
Proof.
  intros A. unfold gives, after_reading in *. pose proof (start_sound disk before) as S. destruct (event_views now (ReadProp p k) S) as (S1 & _). cbn [happen] in S1.
  unfold read_view in A, S1 |- *. destruct (lookup fpath_eqb (views now) p) as [v|e] eqn:L; [|discriminate A]. destruct (read_object (on_disk now) p v k) as (r & w) eqn:R. cbn [fst snd] in *. subst r.
  destruct (read_ok _ _ _ _ _ _ (proj1 (proj1 S _ _ L)) R) as (C' & _ & G & _ & Y). destruct (Y x eq_refl) as (d & O & Sy). destruct (G d O) as (W & _).
  destruct (history_views later _ S1) as (S2 & H). assert (Lw : lookup fpath_eqb (views (set_view now p w)) p = Ok w) by (unfold set_view; cbn [views]; rewrite (dict_put_get fpath_eqb path_decides), path_eqb_refl; reflexivity).
  destruct (H p w Lw) as (u & Lu & (_ & _ & T) & _). rewrite Lu. destruct (read_object (on_disk (history_of (set_view now p w) later)) p u k) as (r & u') eqn:R'. cbn [fst].
  destruct (read_ok _ _ _ _ _ _ (proj1 (proj1 S2 _ _ Lu)) R') as (_ & _ & G' & _). destruct (G' d (or_introl (T d W))) as (_ & G1 & _). apply G1, Sy.
Qed.
(** All that a view ever gives is about one and the same file: what was on disk
    when the view was first read, so that the properties fit together. *)
Theorem C86_one_file p k x : gives now p k = Ok x ->
  exists d, says d k x /\ forall later k', (forall y, says d k' y -> gives (history_of (after_reading now p k) later) p k' = Ok y) /\ (forall e, refuses d k' e -> gives (history_of (after_reading now p k) later) p k' = Raise e).
Proof.
  intros A. unfold gives, after_reading in *. pose proof (start_sound disk before) as S. destruct (event_views now (ReadProp p k) S) as (S1 & _). cbn [happen] in S1.
  unfold read_view in A, S1 |- *. destruct (lookup fpath_eqb (views now) p) as [v|e] eqn:L; [|discriminate A]. destruct (read_object (on_disk now) p v k) as (r & w) eqn:R. cbn [fst snd] in *. subst r.
  destruct (read_ok _ _ _ _ _ _ (proj1 (proj1 S _ _ L)) R) as (C' & _ & G & _ & Y). destruct (Y x eq_refl) as (d & O & Sy). destruct (G d O) as (W & _). exists d. split; [exact Sy|]. intros later k'.
  destruct (history_views later _ S1) as (S2 & H). assert (Lw : lookup fpath_eqb (views (set_view now p w)) p = Ok w) by (unfold set_view; cbn [views]; rewrite (dict_put_get fpath_eqb path_decides), path_eqb_refl; reflexivity).
  destruct (H p w Lw) as (u & Lu & (_ & _ & T) & _). rewrite Lu. destruct (read_object (on_disk (history_of (set_view now p w) later)) p u k') as (r & u') eqn:R'. cbn [fst].
  destruct (read_ok _ _ _ _ _ _ (proj1 (proj1 S2 _ _ Lu)) R') as (_ & _ & G' & _). destruct (G' d (or_introl (T d W))) as (_ & G1 & G2). auto.
Qed.
(** A read that cannot open the file changes nothing. *)
Theorem C86_failed_open p hint i later k : never_asked p before -> fst (request_view now p hint) = Ok i -> Forall (fun e => ~ reads_path p e) later ->
  (forall d, ~ file_at (history_of (snd (request_view now p hint)) later) p (Some d)) ->
  (exists e, gives (history_of (snd (request_view now p hint)) later) p k = Raise e) /\
  forall q, lookup fpath_eqb (views (after_reading (history_of (snd (request_view now p hint)) later) p k)) q = lookup fpath_eqb (views (history_of (snd (request_view now p hint)) later)) q.
Proof.
  intros N A F D. apply (unasked disk) in N. set (st1 := snd (request_view now p hint)) in *. assert (S1 : sound_views st1) by (exact (proj1 (event_views now (Asked p hint) (start_sound disk before)))).
  destruct (requested _ _ _ _ A) as (v & L & I & [X|(_ & ->)]); [congruence|]. destruct (history_views later st1 S1) as (S2 & H). destruct (H p _ L) as (w & Lw & _ & W). rewrite (W F) in Lw. clear W.
  unfold gives, after_reading, read_view. rewrite Lw. destruct (read_object (on_disk (history_of st1 later)) p (new_view i hint) k) as (r & w') eqn:R. cbn [fst snd].
  destruct S2 as (S2 & _). destruct (read_ok _ _ _ _ _ _ (proj1 (S2 _ _ Lw)) R) as (_ & _ & _ & G & _). destruct G as (-> & e & ->); [intros d [X|(_ & _ & X)]; [discriminate X|exact (D d X)]|]. split; [exists e; reflexivity|].
  intros q. unfold set_view. cbn [views]. rewrite (dict_put_get fpath_eqb path_decides). destruct (fpath_eqb p q) eqn:E; [|reflexivity]. apply path_decides in E. subst q. symmetry. exact Lw.
Qed.
(** ** What users might not expect *)
(** The hint of the first request counts, and no other: once a file without the
    usual suffix was asked for without a hint, it can never be read, even if it is
    asked for again with the right hint. *)
Theorem C86_first_hint_refuted p i later k : never_asked p before -> fst (request_view now p None) = Ok i -> suffix (last p []) = [] ->
  gives (history_of (snd (request_view now p None)) later) p k = Raise TypeError.
Proof.
  intros N A X. apply (unasked disk) in N. set (st1 := snd (request_view now p None)) in *. assert (S1 : sound_views st1) by (exact (proj1 (event_views now (Asked p None) (start_sound disk before)))).
  destruct (requested _ _ _ _ A) as (v & L & I & [Y|(_ & ->)]); [congruence|].
  assert (K : forall l st, sound_views st -> view_at st p (new_view i None) -> view_at (history_of st l) p (new_view i None)).
  { assert (E1 : forall dk q, read_object dk p (new_view i None) q = (Raise TypeError, new_view i None)).
    { intros dk q. assert (O : open_viewer dk p (new_view i None) = Raise TypeError) by (unfold open_viewer; cbn [new_view w_viewer w_hint]; unfold choose_viewer; rewrite X; reflexivity).
      destruct q; unfold read_object, read_sizes, read_axes, from_viewer; cbn [new_view w_arrays w_scalars w_axes w_sizes w_units]; fold (new_view i None); rewrite O; reflexivity. }
    induction l as [|e l IH]; intros st S V; [exact V|]. cbn [history_of fold_left]. destruct (event_views st e S) as (S' & E). apply IH; [exact S'|]. destruct (E p _ V) as (w & Lw & _ & W).
    destruct e as [q c|q|q h|q kk]; try (rewrite (W ltac:(intros (? & ?); discriminate)) in Lw; exact Lw). destruct (list_eq_dec str_eq_dec q p) as [->|Nq].
    - cbn [happen]. unfold read_view. rewrite V, E1. cbn [snd]. unfold set_view. cbn [views]. rewrite (dict_put_get fpath_eqb path_decides), path_eqb_refl. reflexivity.
    - rewrite (W ltac:(intros (? & ?); congruence)) in Lw. exact Lw. }
  unfold gives, read_view. rewrite (K later st1 S1 L).
  assert (O : forall dk, open_viewer dk p (new_view i None) = Raise TypeError) by (intros dk; unfold open_viewer; cbn [new_view w_viewer w_hint]; unfold choose_viewer; rewrite X; reflexivity).
  destruct k; unfold read_object, read_sizes, read_axes, from_viewer; cbn [new_view w_arrays w_scalars w_axes w_sizes w_units]; fold (new_view i None); rewrite O; reflexivity.
Qed.
(** A file that is replaced after it was read is never seen: a new request for
    its path shows the old file. *)
Theorem C86_replaced_refuted p k x d hint : gives now p k = Ok x -> 
  fst (request_view (happen (after_reading now p k) (Written p (Some d))) p hint) <> Raise (OtherError "NonExistentPathError") /\
  gives (history_of (after_reading now p k) [Written p (Some d); Asked p hint]) p k = Ok x.
Proof.
  intros A. split; [|apply C86_stable, A]. unfold request_view. cbn [happen on_disk]. rewrite (dict_put_get fpath_eqb path_decides), path_eqb_refl. cbn [views]. destruct (lookup fpath_eqb _ p); discriminate.
Qed.
End History.
Print Assumptions C86_one_view_per_path.
Print Assumptions C86_missing.
Print Assumptions C86_first_read.
Print Assumptions C86_stable.
Print Assumptions C86_one_file.
Print Assumptions C86_failed_open.
Print Assumptions C86_first_hint_refuted.
Print Assumptions C86_replaced_refuted.
(** Properties by name *)
Theorem C86_by_name x : (forall k, In (x, k) [(s "arrays", VArrays); (s "scalars", VScalars); (s "axes", VAxes); (s "sizes", VSizes); (s "units", VUnits)] -> prop_named x = Ok k) /\
  (~ In x (map s ["arrays"; "scalars"; "axes"; "sizes"; "units"]%string) -> prop_named x = Raise KeyError).
Proof.
  split.
  - intros k [E|[E|[E|[E|[E|[]]]]]]; injection E as <- <-; reflexivity.
  - intros N. cbn [map In] in N. unfold prop_named. repeat (match goal with |- context [str_eqb x ?y] => destruct (str_eqb_spec x y) as [->|_]; [exfalso; apply N; tauto|] end). reflexivity.
Qed.
Print Assumptions C86_by_name.
(** The hypotheses are met: [a/obs000000.nc] is written, asked for, rewritten
    before it is read, read, replaced and removed. *)
Example C86_reachable :
  let p := [s "a"; s "obs000000.nc"] in let q := [s "a"; s "data"] in
  let d1 := mkfile [] [(s "time", 3); (s "shell", 2)] in let d2 := mkfile [] [(s "time", 5); (s "shell", 2)] in let d3 := mkfile [] [(s "time", 7)] in
  let before := [Written p (Some d1); Written q (Some d1)] in
  let st := history_of (no_views []) before in
  never_asked p before /\ fst (request_view st p None) = Ok 0 /\
  let st1 := history_of (snd (request_view st p None)) [Written p (Some d2); Asked q None] in
  gives st1 p VAxes = Ok (AxesAre [(s "time", 5); (s "shell", 2)]) /\ gives st1 q VAxes = Raise TypeError /\
  let st2 := history_of (after_reading st1 p VAxes) [Written p (Some d3); Asked p (Some (s "netcdf"))] in
  gives st2 p VSizes = Ok (SizesAre [(s "time", 5); (s "shell", 2)]) /\
  let st3 := happen st2 (Removed p) in
  fst (request_view st3 p None) = Raise (OtherError "NonExistentPathError") /\ gives st3 p VSizes = Ok (SizesAre [(s "time", 5); (s "shell", 2)]).
Proof. split; [intros h [E|[E|[]]]; discriminate E|]. repeat split; vm_compute; reflexivity. Qed.
