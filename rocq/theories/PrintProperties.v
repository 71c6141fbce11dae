(** * Printed forms of objects (C98) *)
From Verif Require Import PyBase PyLemmas ContainerModel SymbolicModel PrintModel.

(** the nearest class of an object that says how to print it *)
Definition nearest {A} (f : class -> option A) (mro : list class) (m : A) : Prop :=
  exists before c after, mro = before ++ c :: after /\ f c = Some m /\ Forall (fun b => f b = None) before.
Definition nowhere {A} (f : class -> option A) (mro : list class) : Prop := Forall (fun c => f c = None) mro.

Lemma nearest_cons {A} (f : class -> option A) c mro m : nearest f (c :: mro) m <-> f c = Some m \/ (f c = None /\ nearest f mro m).
Proof.
  split.
  - intros ([|b before] & c' & after & E & F & B).
    + injection E as -> ->. now left.
    + injection E as <- ->. inversion B as [|? ? B1 B2]; subst. right. split; [exact B1|]. exists before, c', after. auto.
  - intros [F|(F & before & c' & after & -> & G & B)].
    + exists [], c, mro. auto.
    + exists (c :: before), c', after. auto.
Qed.
Lemma nearest_nil {A} (f : class -> option A) m : ~ nearest f [] m.
Proof. intros ([|] & ? & ? & E & _); discriminate E. Qed.
Lemma find_str_nearest mro m : find_str mro = Some m <-> nearest cstr mro m.
Proof.
  induction mro as [|c mro IH]; [split; [discriminate|intros N; now apply nearest_nil in N]|].
  rewrite nearest_cons. cbn [find_str fold_right]. destruct (cstr c); [|rewrite <- IH; intuition congruence].
  split; [left; congruence|]. intros [E|(E & _)]; congruence.
Qed.
Lemma find_repr_nearest mro m : find_repr mro = Some m <-> nearest crepr mro m.
Proof.
  induction mro as [|c mro IH]; [split; [discriminate|intros N; now apply nearest_nil in N]|].
  rewrite nearest_cons. cbn [find_repr fold_right]. destruct (crepr c); [|rewrite <- IH; intuition congruence].
  split; [left; congruence|]. intros [E|(E & _)]; congruence.
Qed.
Lemma find_str_nowhere mro : find_str mro = None <-> nowhere cstr mro.
Proof.
  induction mro as [|c mro IH]; [split; [constructor|reflexivity]|]. cbn [find_str fold_right]. split.
  - destruct (cstr c) eqn:E; [discriminate|]. intros H. constructor; [exact E|now apply IH].
  - intros H. inversion H as [|? ? E F]; subst. rewrite E. now apply IH.
Qed.
Lemma defines_str_find mro : defines_str mro = match find_str mro with Some _ => true | None => false end.
Proof. destruct mro as [|c mro]; [reflexivity|]. cbn [defines_str find_str fold_right]. destruct (cstr c); [reflexivity|]. reflexivity. Qed.

(** what is eventually shown: with enough depth, and the same at every depth
    that is enough *)
Definition prints default_text (mro : list class) (as_str : bool) (t : str) : Prop :=
  exists depth, forall n, (depth <= n)%nat -> shown default_text n mro as_str = Ok t.

(** C98_str_and_repr: an object whose nearest repr was generated by autostr, of a
    class that (or a parent of which) says how to print its text, is shown as
    the text by str and as the name of its own class around the text by repr *)
Theorem C98_str_and_repr d mro t : nearest crepr mro RAuto -> nearest cstr mro (SText t) ->
  prints d mro true t /\ prints d mro false (own_name mro ++ s "(" ++ t ++ s ")").
Proof.
  intros R T. apply find_repr_nearest in R. apply find_str_nearest in T.
  assert (P : forall n, shown d (S n) mro true = Ok t) by (intros n; cbn [shown]; now rewrite T).
  split.
  - exists 1%nat. intros [|n] L; [lia|apply P].
  - exists 2%nat. intros [|[|n]] L; [lia|lia|]. change (shown d (S (S n)) mro false) with
      (match find_repr mro with Some (RText t) => Ok t
       | Some RAuto => if defines_str mro then t <- shown d (S n) mro true ;; Ok (own_name mro ++ s "(" ++ t ++ s ")") else Ok (own_name mro)
       | Some RStr2 => match mro with c :: _ => match cstr c with None => Ok (own_name mro) | Some _ => t <- shown d (S n) mro true ;; Ok (own_name mro ++ s "(" ++ t ++ s ")") end | [] => Ok d end
       | None => Ok d end).
    rewrite R, defines_str_find, T, P. reflexivity.
Qed.
Print Assumptions C98_str_and_repr.
(** C98_no_text: without any such text both are the name of the class, and there
    is no endless recursion *)
Theorem C98_no_text d mro : nearest crepr mro RAuto -> nowhere cstr mro ->
  prints d mro true (own_name mro) /\ prints d mro false (own_name mro).
Proof.
  intros R T. apply find_repr_nearest in R. apply find_str_nowhere in T.
  assert (P : forall n, shown d (S n) mro false = Ok (own_name mro)) by (intros n; cbn [shown]; now rewrite R, defines_str_find, T).
  split; [exists 2%nat|exists 1%nat]; intros n L.
  - destruct n as [|[|n]]; [lia|lia|]. transitivity (shown d (S n) mro false); [|apply P]. cbn [shown]. now rewrite T.
  - destruct n as [|n]; [lia|apply P].
Qed.
Print Assumptions C98_no_text.
(** C98_own_methods: autostr changes no method that a class has, and a class that
    shows its own repr keeps it, also for classes derived from it *)
Theorem C98_own_methods : (forall c r, crepr c = Some r -> autostr c = c) /\
  (forall c, cstr (autostr c) = cstr c /\ cname (autostr c) = cname c /\ exists r, crepr (autostr c) = Some r) /\
  (forall d c mro t, crepr c = Some (RText t) -> prints d (autostr c :: mro) false t).
Proof.
  split; [|split].
  - intros [n st r] r' E. cbn in E. subst r. reflexivity.
  - intros c. split; [reflexivity|]. split; [reflexivity|]. cbn. destruct (crepr c); eauto.
  - intros d c mro t E. exists 1%nat. intros [|n] L; [lia|]. cbn [shown find_repr fold_right autostr crepr]. now rewrite E.
Qed.
Print Assumptions C98_own_methods.
(** C98_decorated: printing an object of a class decorated by autostr *)
Theorem C98_decorated d c mro : crepr c = None ->
  (forall t, nearest cstr (c :: mro) (SText t) -> prints d (autostr c :: mro) false (cname c ++ s "(" ++ t ++ s ")")) /\
  (nowhere cstr (c :: mro) -> prints d (autostr c :: mro) false (cname c) /\ prints d (autostr c :: mro) true (cname c)).
Proof.
  intros E.
  assert (R : nearest crepr (autostr c :: mro) RAuto) by (apply nearest_cons; left; cbn; now rewrite E).
  split.
  - intros t T. apply (C98_str_and_repr d (autostr c :: mro) t R). apply nearest_cons in T. apply nearest_cons. exact T.
  - intros N. assert (N2 : nowhere cstr (autostr c :: mro)) by (inversion N as [|? ? A B]; constructor; assumption).
    destruct (C98_no_text d (autostr c :: mro) R N2) as (A & B). split; [exact B|exact A].
Qed.
Print Assumptions C98_decorated.
(** C98_derived_refuted: str2repr does not know inherited texts: an object of a
    derived class is shown by its name only, although str shows the text *)
Theorem C98_derived_refuted d c e t : cstr c = Some (SText t) -> cstr e = None -> crepr e = None ->
  prints d [str2repr c] false (cname c ++ s "(" ++ t ++ s ")") /\ prints d [e; str2repr c] true t /\ prints d [e; str2repr c] false (cname e).
Proof.
  intros C E R. split; [|split].
  - exists 2%nat. intros [|[|n]] L; [lia|lia|]. cbn. now rewrite C.
  - exists 1%nat. intros [|n] L; [lia|]. cbn. now rewrite E, C.
  - exists 1%nat. intros [|n] L; [lia|]. cbn. now rewrite R, E.
Qed.
Print Assumptions C98_derived_refuted.
(** C98_recursion_refuted: a class decorated by autostr whose str shows its repr
    (or that inherits such a str) cannot be printed *)
Theorem C98_recursion_refuted d mro n b : nearest crepr mro RAuto -> nearest cstr mro SRepr -> shown d n mro b = Raise RecursionError.
Proof.
  intros R T. apply find_repr_nearest in R. apply find_str_nearest in T. revert b.
  induction n as [|n IH]; intros b; [reflexivity|]. cbn [shown]. destruct b.
  - rewrite T. apply IH.
  - rewrite R, defines_str_find, T, IH. reflexivity.
Qed.
Print Assumptions C98_recursion_refuted.

(** C98_apply: the result is the first one that counts as true; no method after
    it is called; without one the result is None; an error that comes first ends it *)
Theorem C98_apply {T} (truth : T -> bool) methods :
  (forall before v after, methods = map Ok before ++ Ok v :: after -> Forall (fun x => truth x = false) before -> truth v = true ->
     apply_methods truth methods = (Ok (Some v), S (length before))) /\
  (forall before e after, methods = map Ok before ++ Raise e :: after -> Forall (fun x => truth x = false) before ->
     apply_methods truth methods = (Raise e, S (length before))) /\
  (forall all, methods = map Ok all -> Forall (fun x => truth x = false) all -> apply_methods truth methods = (Ok None, length all)).
Proof.
  split; [|split].
  - intros before v after -> F V. induction F as [|x l Fx F IH]; cbn [map app apply_methods length]; [now rewrite V|]. rewrite Fx, IH. reflexivity.
  - intros before e after -> F. induction F as [|x l Fx F IH]; cbn [map app apply_methods length]; [reflexivity|]. rewrite Fx, IH. reflexivity.
  - intros all -> F. induction F as [|x l Fx F IH]; cbn [map apply_methods length]; [reflexivity|]. rewrite Fx, IH. reflexivity.
Qed.
Print Assumptions C98_apply.

(** ** examples *)
Definition base_class := mkclass (s "Base") (Some (SText (s "v=3"))) None.
Definition derived := mkclass (s "Derived") None None.
Example derived_auto : prints (s "<object>") [derived; autostr base_class] false (s "Derived(v=3)").
Proof.
  apply (C98_str_and_repr (s "<object>") [derived; autostr base_class] (s "v=3")).
  - exists [derived], (autostr base_class), []. split; [reflexivity|]. split; [reflexivity|]. constructor; [reflexivity|constructor].
  - exists [derived], (autostr base_class), []. split; [reflexivity|]. split; [reflexivity|]. constructor; [reflexivity|constructor].
Qed.
Example bare_class : prints (s "<object>") [autostr derived] true (s "Derived").
Proof. apply (C98_no_text (s "<object>") [autostr derived]); [exists [], (autostr derived), []; auto|repeat constructor]. Qed.
Example derived_str2 : prints (s "<object>") [derived; str2repr base_class] false (s "Derived").
Proof. apply (C98_derived_refuted _ base_class derived (s "v=3")); reflexivity. Qed.
Example endless : nearest crepr [autostr (mkclass (s "C") (Some SRepr) None)] RAuto /\ nearest cstr [autostr (mkclass (s "C") (Some SRepr) None)] SRepr.
Proof. split; exists [], (autostr (mkclass (s "C") (Some SRepr) None)), []; auto. Qed.
Example applied : apply_methods (fun x => negb (Nat.eqb x 0)) [Ok 0%nat; Ok 7%nat; Raise ValueError] = (Ok (Some 7%nat), 2%nat).
Proof. reflexivity. Qed.
