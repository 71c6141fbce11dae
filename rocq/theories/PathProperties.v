(** C89, continued: paths given on the command line. *)
From Verif Require Import PyBase PyLemmas FsModel FsProofs ProjectModel ProjectSpec ProjectProofs5 CommandModel.

Lemma components_slash r : components ("/"%char :: r) = components r.
Proof. reflexivity. Qed.
Lemma path_text p : plain_path p -> p <> [] -> exists c t, path_str p = "/"%char :: c :: t /\ c <> "/"%char.
Proof.
  intros Pl Ne. destruct p as [|x p]; [contradiction|]. inversion Pl as [|? ? Px]; subst. destruct Px as ((A & B) & _).
  destruct x as [|c x]; [contradiction|]. exists c, (x ++ path_str_rel p). split; [reflexivity|]. intros ->. apply B. now left.
Qed.
(** [rel] is the text of the names of [p] with slashes between them.  After a slash
    it is the path from the root, alone or after [./] the path from the
    current directory; further slashes at the beginning do not count; the empty text
    and a dot are the current directory. *)
Theorem C89_paths : forall cwd p rel, plain_path p -> p <> [] -> path_str p = s "/" ++ rel ->
  resolved cwd (s "/" ++ rel) = p /\ resolved cwd (s "//" ++ rel) = p /\ resolved cwd rel = cwd ++ p /\ resolved cwd (s "./" ++ rel) = cwd ++ p
  /\ resolved cwd [] = cwd /\ resolved cwd (s ".") = cwd /\ resolved cwd (s "/") = [].
Proof.
  intros cwd p rel Pl Ne E. pose proof (components_path p Pl) as C. destruct (path_text p Pl Ne) as (c & t & E2 & Hc).
  rewrite E in C, E2. injection E2 as ->. cbn [app s list_ascii_of_string] in C. rewrite components_slash in C.
  assert (R : components (s "./" ++ c :: t) = components (c :: t)) by reflexivity.
  split; [exact C|]. split; [exact C|]. split; [|split; [|split; [reflexivity|split; [|reflexivity]]]].
  - unfold resolved. destruct (Ascii.eqb_spec c "/"%char); [contradiction|]. now rewrite C.
  - change (resolved cwd (s "./" ++ c :: t)) with (cwd ++ components (s "./" ++ c :: t)). now rewrite R, C.
  - change (resolved cwd (s ".")) with (cwd ++ []). apply app_nil_r.
Qed.
Print Assumptions C89_paths.
Example C89_paths_case : resolved [s "home"] (s "work/run") = [s "home"; s "work"; s "run"] /\ resolved [s "home"] (s "/work/run") = [s "work"; s "run"].
Proof. split; reflexivity. Qed.
