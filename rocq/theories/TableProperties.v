(** Property C91: printed tables. *)
From Verif Require Import PyBase PyLemmas ContainerModel ContainerProofs ContainerProofs2 TableModel CliSpec TableSpec.

Lemma blanks_length n : length (blanks n) = n.
Proof. apply repeat_length. Qed.
Lemma half n : n / 2 <= n /\ (n - n / 2 = n / 2 \/ n - n / 2 = n / 2 + 1).
Proof. pose proof (Nat.div_mod n 2 ltac:(discriminate)). pose proof (Nat.mod_upper_bound n 2 ltac:(discriminate)). lia. Qed.
Lemma half_ge n k : 2 * k <= n -> k <= n / 2.
Proof. intros H. apply Nat.div_le_lower_bound; [discriminate|exact H]. Qed.
Lemma centre_shows w t : length t <= w -> shows (4 + w) t (centre (4 + w) t).
Proof.
  intros L. unfold centre. set (p := 4 + w - length t). exists (p / 2), (p - p / 2). split; [reflexivity|].
  destruct (half p) as (A & B). split; [apply half_ge; subst p; lia|]. split; [exact B|]. rewrite !app_length, !blanks_length. subst p. lia.
Qed.

Lemma has_in (e : entry) k : has_key e k = true <-> In k (map fst e).
Proof. unfold has_key. apply (mem_spec str_eqb str_eqb_eq). Qed.
Lemma common_some t k : t <> [] -> is_common t k = Ok (forallb (fun e : entry => has_key e k) t).
Proof. destruct t; [contradiction|reflexivity]. Qed.

Lemma columns_spec t : t <> [] -> forall names seen all l, distinct_in_order all l -> (forall n, In n seen <-> In n all) ->
  exists r, columns_of t seen names = Ok r /\ distinct_in_order (all ++ filter (fun k => forallb (fun e : entry => has_key e k) t) names) (l ++ r).
Proof.
  intros T. induction names as [|n names IH]; intros seen all l D S; cbn [columns_of filter].
  - exists []. rewrite !app_nil_r. auto.
  - rewrite (common_some t n T). cbn [bind]. destruct (forallb (fun e : entry => has_key e n) t) eqn:C; cbn [andb].
    + destruct (mem str_eqb n seen) eqn:M; cbn [negb].
      * apply (mem_spec str_eqb str_eqb_eq) in M. apply S in M.
        destruct (IH seen (all ++ [n]) l (seen_again _ _ _ D M)) as (r & E & D').
        { intros x. rewrite in_app_iff, S. split; [tauto|]. intros [I|[<-|[]]]; assumption. }
        exists r. split; [exact E|]. rewrite <- app_assoc in D'. exact D'.
      * assert (N : ~ In n all) by (rewrite <- S; intros I; apply (mem_spec str_eqb str_eqb_eq) in I; congruence).
        destruct (IH (n :: seen) (all ++ [n]) (l ++ [n]) (seen_first _ _ _ D N)) as (r & E & D').
        { intros x. cbn [In]. rewrite in_app_iff, S. cbn [In]. tauto. }
        exists (n :: r). rewrite E. split; [reflexivity|]. rewrite <- !app_assoc in D'. exact D'.
    + exact (IH seen all l D S).
Qed.
Lemma all_have t n : forallb (fun e : entry => has_key e n) t = true <-> Forall (fun e : entry => In n (map fst e)) t.
Proof. rewrite forallb_forall, Forall_forall. split; intros H e I; apply has_in, H, I. Qed.
Lemma columns_are t names : t <> [] -> exists cs, columns_of t [] names = Ok cs /\ shown_columns t names cs.
Proof.
  intros T. destruct (columns_spec t T names [] [] [] no_things (fun n => iff_refl _)) as (cs & E & D). exists cs. split; [exact E|].
  exists (fun k => forallb (fun e : entry => has_key e k) t). split; [intros n; apply all_have|exact D].
Qed.
Lemma distinct_in {A} (all l : list A) : distinct_in_order all l -> forall x, In x l <-> In x all.
Proof.
  induction 1 as [|all x l D IH I|all x l D IH I]; intros y; [tauto| |]; rewrite !in_app_iff, IH; cbn [In]; split; [tauto| |tauto|tauto].
  intros [J|[<-|[]]]; assumption.
Qed.
Lemma column_common t names cs n : shown_columns t names cs -> In n cs -> Forall (fun e : entry => In n (map fst e)) t.
Proof. intros (ev & V & D) I. apply (distinct_in _ _ D), filter_In in I as (_ & I). apply V, I. Qed.

Lemma get_under (e : entry) n c : row_get e n = Ok c <-> under e n c.
Proof.
  unfold row_get, under. induction e as [|(k, v) e IH]; cbn [lookup].
  - split; [discriminate|]. intros (b & a & E & _). destruct b; discriminate E.
  - destruct (str_eqb_spec k n) as [->|N].
    + split; [intros E; injection E as ->; exists [], e; auto|]. intros (b & a & E & M). destruct b as [|p b]; cbn [app] in E; [injection E as -> _; reflexivity|]. injection E as <- _. exfalso. apply M. left. reflexivity.
    + rewrite IH. split.
      * intros (b & a & -> & M). exists ((k, v) :: b), a. split; [reflexivity|]. cbn [map fst In]. tauto.
      * intros (b & a & E & M). destruct b as [|p b]; cbn [app] in E; [injection E as E1 _ _; congruence|]. injection E as <- E. exists b, a. rewrite E. split; [reflexivity|]. cbn [map fst In] in M. tauto.
Qed.
Lemma in_under (e : entry) n : In n (map fst e) -> exists c, under e n c.
Proof.
  intros I. assert (G : exists c, row_get e n = Ok c); [|destruct G as (c & G); exists c; apply get_under, G].
  unfold row_get. induction e as [|(k, v) e IH]; [destruct I|]. cbn [lookup]. destruct (str_eqb_spec k n) as [E|N]; [eauto|]. apply IH. destruct I as [I|I]; [contradiction|exact I].
Qed.

Lemma width_ge_start (t : list entry) n w : w <= fold_left (fun w e => match row_get e n with Ok c => Nat.max w (length (cell_str c)) | Raise _ => w end) t w.
Proof. revert w. induction t as [|e t IH]; intros w; cbn [fold_left]; [lia|]. etransitivity; [|apply IH]. destruct (row_get e n); lia. Qed.
Lemma width_ge_cell (t : list entry) n e c : forall w, In e t -> row_get e n = Ok c ->
  length (cell_str c) <= fold_left (fun w e => match row_get e n with Ok c => Nat.max w (length (cell_str c)) | Raise _ => w end) t w.
Proof.
  induction t as [|x t IH]; intros w I G; [destruct I|]. cbn [fold_left]. destruct I as [->|I]; [|apply IH; assumption].
  etransitivity; [|apply width_ge_start]. rewrite G. lia.
Qed.
(** the width of a column is taken by its name or by one of its values *)
Lemma width_is (t : list entry) n : forall w, fold_left (fun w e => match row_get e n with Ok c => Nat.max w (length (cell_str c)) | Raise _ => w end) t w = w \/
  exists e c, In e t /\ row_get e n = Ok c /\ fold_left (fun w e => match row_get e n with Ok c => Nat.max w (length (cell_str c)) | Raise _ => w end) t w = length (cell_str c).
Proof.
  induction t as [|x t IH]; intros w; cbn [fold_left]; [left; reflexivity|]. destruct (row_get x n) as [c|] eqn:G.
  - destruct (IH (Nat.max w (length (cell_str c)))) as [E|(y & d & I & D & E)].
    + rewrite E. destruct (Nat.max_spec w (length (cell_str c))) as [(_ & ->)|(_ & ->)]; [|left; reflexivity]. right. exists x, c. split; [left; reflexivity|]. auto.
    + right. exists y, d. split; [right; exact I|]. auto.
  - destruct (IH w) as [E|(y & d & I & D & E)]; [left; exact E|]. right. exists y, d. split; [right; exact I|]. auto.
Qed.

Section Shown.
Variables (t : list entry) (names : list str).
Hypothesis T : t <> [].

(** [w] is the width of the column: four more than the longest of the name and the values *)
Definition fits (n : str) (w : nat) : Prop :=
  4 + length n <= w /\ (forall e c, In e t -> under e n c -> 4 + length (cell_str c) <= w) /\
  (w = 4 + length n \/ exists e c, In e t /\ under e n c /\ w = 4 + length (cell_str c)).
Lemma width_fits n : fits n (2 * 2 + width t n).
Proof using.
  clear T. unfold width. change (2 * 2) with 4. split; [|split].
  - apply Nat.add_le_mono_l, width_ge_start.
  - intros e c I U. apply Nat.add_le_mono_l. apply (width_ge_cell t n e c); [exact I|apply get_under, U].
  - destruct (width_is t n (length n)) as [->|(e & c & I & G & ->)]; [left; reflexivity|]. right. exists e, c. split; [exact I|]. split; [apply get_under, G|reflexivity].
Qed.
Lemma cells_line (cs : list str) (w : str -> nat) (f : str -> str) : (forall n, In n cs -> length (f n) <= w n) ->
  line_shows (map (fun n => 4 + w n) cs) (map f cs) (concat (map (fun n => centre (4 + w n) (f n)) cs)).
Proof using.
  clear T. intros H. eexists. split; [reflexivity|]. induction cs as [|n cs IH]; cbn [map combine]; constructor; [|apply IH; intros; apply H; right; assumption].
  cbn [fst snd]. apply centre_shows, H. left. reflexivity.
Qed.
Lemma row_ok cs e : (forall n, In n cs -> exists c x, row_get e n = Ok c /\ cell_format c = Ok x) ->
  mapM (fun n => c <- row_get e n ;; x <- cell_format c ;; Ok (centre (2 * 2 + width t n) x)) cs =
  Ok (map (fun n => centre (4 + width t n) (match row_get e n with Ok c => match cell_format c with Ok x => x | Raise _ => [] end | Raise _ => [] end)) cs).
Proof using.
  clear T. induction cs as [|n cs IH]; intros H; [reflexivity|]. cbn [mapM map]. destruct (H n (or_introl eq_refl)) as (c & x & G & X). rewrite G. cbn [bind]. rewrite X. cbn [bind].
  rewrite IH by (intros m I; apply H; right; exact I). reflexivity.
Qed.

(** A table of texts and numbers is printed as a header, a row of dashes and
    one line per entry, in order; all lines have the same columns, wide enough
    for the name and every value, with every cell centred. *)
Theorem C91_show : (forall e n c, In e t -> In n names -> under e n c -> exists x, printable c x) ->
  exists cs lines, show t names = Ok lines /\ shown_columns t names cs /\
    (cs = [] -> lines = []) /\
    (cs <> [] -> exists ws header dashes rows, lines = header :: dashes :: rows /\ Forall2 fits cs ws /\
       line_shows ws cs header /\ line_shows ws (map (fun n => repeat "-"%char (length n)) cs) dashes /\
       Forall2 (fun e line => exists ts, Forall2 (fun n x => exists c, under e n c /\ printable c x) cs ts /\ line_shows ws ts line) t rows).
Proof using T.
  intros P. destruct (columns_are t names T) as (cs & E & C).
  assert (IN : forall n, In n cs -> In n names).
  { destruct C as (ev & _ & D). intros n I. apply (distinct_in _ _ D), filter_In in I. tauto. }
  assert (ROW : forall e n, In e t -> In n cs -> exists c x, row_get e n = Ok c /\ printable c x /\ cell_format c = Ok x /\ cell_str c = x).
  { intros e n I J. pose proof (column_common t names cs n C J) as F. rewrite Forall_forall in F. destruct (in_under e n (F e I)) as (c & U).
    destruct (P e n c I (IN n J) U) as (x & X). exists c, x. split; [apply get_under, U|]. split; [exact X|]. destruct X as [-> | ->]; auto. }
  set (f := fun (e : entry) n => match row_get e n with Ok c => match cell_format c with Ok x => x | Raise _ => [] end | Raise _ => [] end).
  assert (M : forall l, incl l t -> mapM (fun e : entry => mapM (fun n => c <- row_get e n ;; x <- cell_format c ;; Ok (centre (2 * 2 + width t n) x)) cs) l =
     Ok (map (fun e => map (fun n => centre (4 + width t n) (f e n)) cs) l)).
  { induction l as [|e l IH]; intros I; [reflexivity|]. cbn [mapM map]. rewrite row_ok.
    - cbn [bind]. rewrite IH by (intros x J; apply I; right; exact J). reflexivity.
    - intros n J. destruct (ROW e n (I e (or_introl eq_refl)) J) as (c & x & G & _ & X & _). eauto. }
  unfold show. rewrite E. cbn [bind]. pose proof (M t (incl_refl t)) as M'. cbv zeta in M' |- *. match type of M' with ?l = ?r => match goal with |- context [bind ?l' _] => change l' with l end end. rewrite M'. cbn [bind].
  destruct cs as [|c0 cs0] eqn:CS.
  - exists [], []. split; [reflexivity|]. split; [exact C|]. split; [auto|contradiction].
  - rewrite <- CS in *. exists cs. eexists. split; [reflexivity|]. split; [exact C|]. split; [intros X; rewrite X in CS; discriminate CS|]. intros _.
    exists (map (fun n => 4 + width t n) cs). do 3 eexists. split; [reflexivity|]. split; [|split; [|split]].
    + clear. induction cs as [|n cs IH]; constructor; [apply (width_fits n)|exact IH].
    + rewrite <- (map_id cs) at 2. apply (cells_line cs (width t) (fun n => n)). intros n _. apply width_ge_start.
    + apply (cells_line cs (width t) (fun n => repeat "-"%char (length n))). intros n _. rewrite repeat_length. apply width_ge_start.
    + rewrite map_map. assert (R : forall l, incl l t -> Forall2 (fun (e : entry) line => exists ts, Forall2 (fun n x => exists c, under e n c /\ printable c x) cs ts /\ line_shows (map (fun n => 4 + width t n) cs) ts line) l
         (map (fun x => concat (map (fun n => centre (4 + width t n) (f x n)) cs)) l)); [|apply R, incl_refl].
      induction l as [|e l IH]; intros I; constructor; [|apply IH; intros x J; apply I; right; exact J].
      assert (IE : In e t) by (apply I; left; reflexivity). exists (map (f e) cs). split.
      * assert (H : forall n, In n cs -> exists c, under e n c /\ printable c (f e n)).
        { intros n J. destruct (ROW e n IE J) as (c & x & G & X & Y & _). exists c. split; [apply get_under, G|]. unfold f. rewrite G, Y. exact X. }
        clear - H. induction cs as [|n cs IH]; constructor; [apply H; left; reflexivity|apply IH; intros m J; apply H; right; exact J].
      * apply (cells_line cs (width t) (f e)). intros n J. destruct (ROW e n IE J) as (c & x & G & X & Y & Z). unfold f. rewrite G, Y, <- Z. apply (width_ge_cell t n e c); assumption.
Qed.

(** An object without a format (None, a list) in a shown column: TypeError, and nothing is printed. *)
Theorem C91_unprintable e n c : In e t -> In n names -> Forall (fun e => In n (map fst e)) t -> under e n c -> (exists x, c = CObject x) ->
  show t names = Raise TypeError.
Proof using T.
  intros I J F U (x & ->). destruct (columns_are t names T) as (cs & E & C). unfold show. rewrite E. cbn [bind].
  assert (K : In n cs) by (destruct C as (ev & V & D); apply (distinct_in _ _ D), filter_In; split; [exact J|apply V, F]).
  cbv zeta. match goal with |- context [bind (mapM ?h t) _] => set (g := h) end.
  assert (ROW : forall e', In e' t -> (exists r, g e' = Ok r) \/ g e' = Raise TypeError).
  { intros e' I'. unfold g. assert (H : forall m, In m cs -> exists c, row_get e' m = Ok c).
    { intros m M. pose proof (column_common t names cs m C M) as F'. rewrite Forall_forall in F'. destruct (in_under e' m (F' e' I')) as (c & U'). exists c. apply get_under, U'. }
    clear - H. induction cs as [|m cs IH]; [left; eexists; reflexivity|]. cbn [mapM]. destruct (H m (or_introl eq_refl)) as (c & G). rewrite G. cbn [bind].
    destruct c as [y|y|[]|y]; cbn [cell_format bind]; try (right; reflexivity);
      (destruct IH as [(r & ->)| ->]; [intros k M; apply H; right; exact M|left; eexists; reflexivity|right; reflexivity]). }
  assert (BAD : g e = Raise TypeError).
  { destruct (ROW e I) as [(r & R)|R]; [|exact R]. exfalso. unfold g in R. apply get_under in U. clear - R K U.
    revert r R. induction cs as [|m cs IH]; [destruct K|]. intros r R. cbn [mapM] in R. destruct K as [->|K].
    - rewrite U in R. discriminate R.
    - destruct (row_get e m) as [c|]; cbn [bind] in R; [|discriminate R]. destruct (cell_format c); cbn [bind] in R; [|discriminate R].
      destruct (mapM _ cs) as [r'|] eqn:Q; cbn [bind] in R; [|discriminate R]. exact (IH K r' eq_refl). }
  assert (X : forall l, incl l t -> In e l -> mapM g l = Raise TypeError).
  { induction l as [|y l IH]; intros S H; [destruct H|]. cbn [mapM]. destruct (ROW y (S y (or_introl eq_refl))) as [(r & Y)|Y].
    - rewrite Y. cbn [bind]. destruct H as [->|H]; [congruence|]. rewrite IH; [reflexivity|intros z Z; apply S; right; exact Z|exact H].
    - rewrite Y. reflexivity. }
  rewrite (X t (incl_refl t) I). reflexivity.
Qed.
End Shown.
Print Assumptions C91_show.
Print Assumptions C91_unprintable.

(** Without names, nothing is printed; an empty table cannot be printed. *)
Theorem C91_no_names t : show t [] = Ok [].
Proof.
  unfold show. cbn [columns_of bind map]. assert (M : forall l, mapM (fun _ : entry => @mapM str str (fun n => Ok n) []) l = Ok (map (fun _ => []) l)).
  { induction l as [|e l IH]; [reflexivity|]. cbn [mapM map bind]. cbn [mapM] in IH. rewrite IH. reflexivity. }
  cbn [mapM] in *. rewrite M. reflexivity.
Qed.
Theorem C91_empty_table_refuted n names : show [] (n :: names) = Raise IndexError.
Proof. reflexivity. Qed.
(** A user expects to see the values.  Refuted: truth values are shown as numbers, in
    a column as wide as their names. *)
Theorem C91_truth_values_refuted : show [[(s "ok", CBool true)]] [s "ok"] = Ok [s "   ok   "; s "   --   "; s "   1    "] /\
  show [[(s "ok", CBool false)]] [s "ok"] = Ok [s "   ok    "; s "   --    "; s "    0    "].
Proof. split; reflexivity. Qed.
Print Assumptions C91_no_names.
Print Assumptions C91_empty_table_refuted.
Print Assumptions C91_truth_values_refuted.

Definition demo_table : list entry := [
  [(s "symbol", CText (s "H")); (s "name", CText (s "Hydrogen")); (s "mass", CNumber (s "1.00797"))];
  [(s "symbol", CText (s "He")); (s "name", CText (s "Helium")); (s "mass", CNumber (s "4.0026"))]].
Example C91_show_case : show demo_table [s "symbol"; s "charge"; s "mass"; s "symbol"] = Ok [
  s "  symbol     mass    ";
  s "  ------     ----    ";
  s "    H       1.00797  ";
  s "    He      4.0026   "].
Proof. reflexivity. Qed.
Example C91_show_hypotheses : forall e n c, In e demo_table -> In n [s "symbol"; s "charge"; s "mass"; s "symbol"] -> under e n c -> exists x, printable c x.
Proof.
  intros e n c I J U. apply get_under in U. destruct I as [<-|[<-|[]]]; destruct J as [<-|[<-|[<-|[<-|[]]]]]; cbn in U; try discriminate U; injection U as <-; eexists; (left; reflexivity) || (right; reflexivity).
Qed.
Example C91_unprintable_case : show [[(s "a", CText (s "x"))]; [(s "a", CObject (s "None"))]] [s "a"] = Raise TypeError.
Proof. reflexivity. Qed.
