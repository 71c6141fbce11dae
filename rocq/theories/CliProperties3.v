(** C79, continued: what is displayed for single parameters, and how lists are written. *)
From Verif Require Import PyBase PyLemmas ContainerModel SymbolicModel ConfigModel ParameterModel CliModel.
Local Open Scope nat_scope.

Section Display.
Context {D : Type}.
Variables (dstr drepr : D -> str) (dnone : D -> bool) (astr arepr : list D -> str).
Notation format_arg := (format_arg dstr drepr dnone astr arepr).
(** the number of a single-valued parameter, otherwise the array *)
Definition shown_with (one : D -> str) (many : list D -> str) (l : list D) : str := match l with [d] => one d | _ => many l end.
(** The text in a column: a plain value as [str] prints it; a quantity without unit, or without
    value, as [repr] prints it; any other quantity with its unit in quotes, days always as 'day'. *)
Theorem C79_display :
  (forall d, format_arg (Bare d) = dstr d) /\
  (forall l u, format_arg (Quantity l u true) = shown_with drepr arepr l) /\
  (forall d u one, dnone d = true -> format_arg (Quantity [d] u one) = drepr d) /\
  (forall l u, (forall d, l = [d] -> dnone d = false) -> exists w, format_arg (Quantity l u false) = shown_with dstr astr l ++ s " '" ++ w ++ s "'" /\
     (u = s "d" \/ u = s "day" -> w = s "day") /\ (u <> s "d" -> w = u)).
Proof using.
  split; [reflexivity|]. split; [intros [|d [|e l]] u; reflexivity|]. split.
  - intros d u one N. cbn [CliModel.format_arg arg_none]. rewrite N, Bool.orb_true_r. reflexivity.
  - intros l u N. assert (A : arg_none dnone (Quantity l u false) = false).
    { destruct l as [|d [|e l]]; [reflexivity| |reflexivity]. cbn [arg_none]. apply N. reflexivity. }
    assert (B : arg_str dstr astr (Quantity l u false) = shown_with dstr astr l) by (destruct l as [|d [|e l]]; reflexivity).
    cbn [CliModel.format_arg orb]. rewrite A, B. destruct (str_eqb_spec u (s "d")) as [->|X].
    + exists (s "day"). cbn [orb]. split; [reflexivity|]. split; [reflexivity|]. intros Y. contradiction Y; reflexivity.
    + cbn [orb]. destruct (str_eqb_spec u (s "day")) as [->|Y].
      * exists (s "day"). split; [reflexivity|]. split; reflexivity.
      * exists u. split; [reflexivity|]. split; [intros [Z|Z]; contradiction|reflexivity].
Qed.
Lemma quote_split (a b x y : str) : ~ In "'"%char a -> ~ In "'"%char b -> a ++ "'"%char :: x = b ++ "'"%char :: y -> a = b /\ x = y.
Proof using.
  clear. revert b. induction a as [|c a IH]; intros [|e b] Na Nb E.
  - injection E as ->. auto.
  - injection E as <- _. contradiction Nb. left. reflexivity.
  - injection E as -> _. contradiction Na. left. reflexivity.
  - injection E as -> E. destruct (IH b) as (-> & ->); [intros I; apply Na; right; exact I|intros I; apply Nb; right; exact I|exact E|]. auto.
Qed.
(** Two quantities with units are displayed alike exactly if their numbers are and their units are the
    same, up to the two names of the day. *)
Theorem C79_display_differs l l' u u' :
  (forall d, l = [d] -> dnone d = false) -> (forall d, l' = [d] -> dnone d = false) ->
  ~ In "'"%char (shown_with dstr astr l) -> ~ In "'"%char (shown_with dstr astr l') ->
  format_arg (Quantity l u false) = format_arg (Quantity l' u' false) <->
  shown_with dstr astr l = shown_with dstr astr l' /\ (u = u' \/ (In u [s "d"; s "day"] /\ In u' [s "d"; s "day"])).
Proof using.
  intros N N' Q Q'. destruct C79_display as (_ & _ & _ & H). destruct (H l u N) as (w & E & A & B). destruct (H l' u' N') as (w' & E' & A' & B'). rewrite E, E'.
  assert (W : shown_with dstr astr l ++ s " '" ++ w ++ s "'" = shown_with dstr astr l' ++ s " '" ++ w' ++ s "'" <-> shown_with dstr astr l = shown_with dstr astr l' /\ w = w').
  { split; [|intros (-> & ->); reflexivity]. intros X.
    assert (P : forall t v : str, t ++ s " '" ++ v ++ s "'" = (t ++ s " ") ++ "'"%char :: (v ++ s "'")) by (intros t v; rewrite <- app_assoc; reflexivity).
    rewrite !P in X. apply quote_split in X as (X & Y).
    - apply app_inj_tail in X as (X & _). apply app_inj_tail in Y as (Y & _). auto.
    - intros I. apply in_app_or in I as [I|[I|[]]]; [contradiction|discriminate I].
    - intros I. apply in_app_or in I as [I|[I|[]]]; [contradiction|discriminate I]. }
  rewrite W. split; intros (X & Y); (split; [exact X|]).
  - destruct (str_eq_dec u (s "d")) as [->|Z]; destruct (str_eq_dec u' (s "d")) as [->|Z']; [left; reflexivity| | |left; rewrite <- (B Z), <- (B' Z'); exact Y].
    + right. split; [left; reflexivity|]. right. left. rewrite <- (B' Z'), <- Y. symmetry. apply A. left. reflexivity.
    + right. split; [|left; reflexivity]. right. left. rewrite <- (B Z), Y. symmetry. apply A'. left. reflexivity.
  - destruct Y as [<-|(I & I')].
    + destruct (str_eq_dec u (s "d")) as [->|Z]; [rewrite A, A' by (left; reflexivity); reflexivity|rewrite (B Z), (B' Z); reflexivity].
    + rewrite A, A'; [reflexivity|destruct I' as [<-|[<-|[]]]; auto|destruct I as [<-|[<-|[]]]; auto].
Qed.
End Display.
Print Assumptions C79_display.
Print Assumptions C79_display_differs.
Example C79_display_case : let f := format_arg str_of_Z str_of_Z (fun z => Z.eqb z 99) (fun _ => s "[...]") (fun _ => s "array") in
  f (Quantity [3%Z] (s "d") false) = s "3 'day'" /\ f (Quantity [3%Z] (s "day") false) = s "3 'day'" /\ f (Quantity [3; 4]%Z (s "G") false) = s "[...] 'G'" /\
  f (Quantity [3; 4]%Z (s "1") true) = s "array" /\ f (Bare 5%Z) = s "5" /\ f (Quantity [99%Z] (s "G") false) = s "99".
Proof. repeat split; vm_compute; reflexivity. Qed.

(** A list is written in brackets, its numbers separated by commas, or by blanks if it has a unit
    and not just one number. *)
Fixpoint separated (sep : str) (l : list str) : str :=
  match l with [] => [] | [x] => x | x :: r => x ++ sep ++ separated sep r end.
Theorem C79_written_list num qs :
  written_value num (PList (map PNum qs), None) = Ok (s "[" ++ separated (s ", ") (map num qs) ++ s "]") /\
  (forall u, length qs <> 1 -> written_value num (PList (map PNum qs), Some u) = Ok (s "[" ++ separated (s " ") (map num qs) ++ s "]")) /\
  (forall u q, written_value num (PList [PNum q], Some u) = Ok (num q)).
Proof.
  assert (J : forall sep l, joined_by sep l = separated sep l).
  { intros sep l. destruct l as [|x l]; [reflexivity|]. cbn [joined_by]. revert x. induction l as [|y l IH]; intros x; [cbn; apply app_nil_r|].
    change (separated sep (x :: y :: l)) with (x ++ sep ++ separated sep (y :: l)). cbn [map concat]. rewrite <- (IH y), <- app_assoc. reflexivity. }
  assert (M : numbers num (map PNum qs) = Ok (map num qs)).
  { unfold numbers. induction qs as [|q qs IH]; [reflexivity|]. cbn [map mapM bind]. rewrite IH. reflexivity. }
  split; [|split].
  - assert (E : written_value num (PList (map PNum qs), None) = (t <- numbers num (map PNum qs) ;; Ok (s "[" ++ joined_by (s ", ") t ++ s "]"))) by (destruct qs as [|q [|r qs]]; reflexivity).
    rewrite E, M. cbn [bind]. rewrite J. reflexivity.
  - intros u L. assert (E : written_value num (PList (map PNum qs), Some u) = (t <- numbers num (map PNum qs) ;; Ok (s "[" ++ joined_by (s " ") t ++ s "]"))) by (destruct qs as [|q [|r qs]]; [reflexivity|contradiction L; reflexivity|reflexivity]).
    rewrite E, M. cbn [bind]. rewrite J. reflexivity.
  - reflexivity.
Qed.
Print Assumptions C79_written_list.
Example C79_written_list_case : written_value (fun _ => s "7") (PList (map PNum [1; 0; 1]%Qc), None) = Ok (s "[7, 7, 7]").
Proof. vm_compute. reflexivity. Qed.
