(* C119: file caches at arbitrary paths. *)
From Verif Require Import Prelude CacheModel CacheSpec PathModel PathSpec PathMain PathReach PathClass.
From Coq Require Import Ascii String.
Local Open Scope nat_scope.
Local Open Scope list_scope.

Definition at_path (s : string) : list (list ascii) := [list_ascii_of_string "runs"; list_ascii_of_string s].

(* ---------------------------------------------------------------- C119 *)

(* Everything that is written to a new cache is read back in order, whatever other directories
   exist, if no component of its path contains "[". *)
Theorem C119_rows_partial :
  forall (A : Type) (t0 : tree A) p f t bs rpf ops,
  p <> [] -> no_bracket p -> g_create t0 p f = (t, None) ->
  List.concat (g_read (g_session bs rpf t p ops) p) = written ops.
Proof. exact @c119_rows. Qed.
Print Assumptions C119_rows_partial.

Theorem C119_rows_refuted :
  exists (t : tree nat) p ops,
  p = at_path "exp[1]" /\ g_create [] p false = (t, None) /\ ops = [WriteTable [1]; WriteTable [2]] /\
  List.concat (g_read (g_session 10 10 t p ops) p) <> written ops.
Proof.
  exists (fst (g_create [] (at_path "exp[1]") false)), (at_path "exp[1]"), [WriteTable [1]; WriteTable [2]].
  split; [reflexivity|]. split; [vm_compute; reflexivity|]. split; [reflexivity|]. vm_compute. discriminate.
Qed.
Print Assumptions C119_rows_refuted.

(* The tables are those of the cache at an ordinary path (C01-C05), whatever the path. *)
Theorem C119_tables_partial :
  forall (A : Type) (t0 : tree A) p f t bs rpf ops,
  p <> [] -> no_bracket p -> g_create t0 p f = (t, None) ->
  g_read (g_session bs rpf t p ops) p = file_tables (f_dir (file_flush (file_run bs rpf ops))).
Proof. exact @c119_tables. Qed.
Print Assumptions C119_tables_partial.

(* Writing changes no other directory, whatever the path. *)
Theorem C119_writes_stay :
  forall (A : Type) (t : tree A) p bs rpf ops q, q <> p -> lookup (g_session bs rpf t p ops) q = lookup t q.
Proof. intros A t p bs rpf ops q Hq. exact (proj1 (proj2 (rewrites_session bs rpf t p ops)) q Hq). Qed.
Print Assumptions C119_writes_stay.

(* delete, create (which may delete) and sort_by change no other directory, if no component of
   the path contains one of * ? [. *)
Theorem C119_others_partial :
  forall (A : Type) (t : tree A) p q, ordinary p -> q <> p ->
  lookup (fst (g_delete t p)) q = lookup t q /\
  (forall srt, lookup (g_sort_by srt t p) q = lookup t q) /\
  (forall f, exists_dir t q = true -> lookup (fst (g_create t p f)) q = lookup t q).
Proof.
  intros A t p q Ho Hq. split; [exact (delete_others t p q Ho Hq)|].
  split; [intros srt; exact (sort_others srt t p q Ho Hq)|intros f; exact (create_others t p f q Ho Hq)].
Qed.
Print Assumptions C119_others_partial.

(* two caches, at runs/exp1 and at runs/exp* *)
Definition two_caches : tree nat :=
  let t1 := fst (g_create [] (at_path "exp1") false) in
  let t2 := g_session 10 10 t1 (at_path "exp1") [WriteTable [3; 2]; WriteTable [1]] in
  fst (g_create t2 (at_path "exp*") false).

Theorem C119_others_refuted :
  exists (t : tree nat) p q, q <> p /\
  snd (g_delete t p) = None /\ g_read t q = [[3; 2]; [1]] /\ g_read (fst (g_delete t p)) q = [] /\
  g_read (g_sort_by (isort Nat.leb) t p) q = [[2; 3]; [1]].
Proof.
  exists two_caches, (at_path "exp*"), (at_path "exp1"). split; [vm_compute; discriminate|].
  split; [vm_compute; reflexivity|]. split; [vm_compute; reflexivity|]. split; vm_compute; reflexivity.
Qed.
Print Assumptions C119_others_refuted.

(* A cache can be deleted after any writes. *)
Theorem C119_delete_partial :
  forall (A : Type) (t0 : tree A) p f t bs rpf ops,
  p <> [] -> no_bracket p -> g_create t0 p f = (t, None) -> (forall n, exists_dir t (p ++ [n]) = false) ->
  snd (g_delete (g_session bs rpf t p ops) p) = None /\
  lookup (fst (g_delete (g_session bs rpf t p ops) p)) p = None.
Proof. exact @c119_delete. Qed.
Print Assumptions C119_delete_partial.

(* With brackets in the path delete fails, and so does every later attempt. *)
Theorem C119_delete_refuted :
  exists (t : tree nat) p u v, g_create [] p false = (t, None) /\
  g_delete (g_session 10 10 t p [WriteTable [1]]) p = (u, Some PNotEmpty) /\
  g_delete u p = (u, Some PNotFound) /\ g_create u p true = (v, Some PNotFound).
Proof.
  eexists _, (at_path "exp[1]"), _, _. split; [vm_compute; reflexivity|].
  split; [vm_compute; reflexivity|]. split; vm_compute; reflexivity.
Qed.
Print Assumptions C119_delete_refuted.

(* sort_by sorts each table of the cache; count_tables counts them. *)
Theorem C119_sort_partial :
  forall (A : Type) srt (t0 : tree A) p f t bs rpf ops,
  p <> [] -> ordinary p -> g_create t0 p f = (t, None) ->
  count_tables (g_session bs rpf t p ops) p = List.length (g_read (g_session bs rpf t p ops) p) /\
  g_read (g_sort_by srt (g_session bs rpf t p ops) p) p = map srt (g_read (g_session bs rpf t p ops) p).
Proof. exact @c119_sort. Qed.
Print Assumptions C119_sort_partial.

Theorem C119_count_refuted :
  exists (t : tree nat) p q, g_read t p = [] /\ count_tables t p = 3 /\ g_read t q <> [] /\ count_tables t q = 0.
Proof.
  exists (g_session 10 10 (fst (g_create two_caches (at_path "exp[2]") false)) (at_path "exp[2]") [WriteTable [5]]),
    (at_path "exp*"), (at_path "exp[2]").
  split; [vm_compute; reflexivity|]. split; [vm_compute; reflexivity|]. split; [vm_compute; discriminate|vm_compute; reflexivity].
Qed.
Print Assumptions C119_count_refuted.

(* a path with wildcards: the files of the neighbour count, the rows are read back; patterns
   as in the shell *)
Example C119_example :
  no_bracket (at_path "exp*") /\ ordinary (at_path "exp1") /\
  (let t := g_session 10 10 two_caches (at_path "exp*") [WriteTable [7]; WriteTable [8]] in
   node_files t (at_path "exp*") = [(2, [7]); (3, [8])] /\ List.concat (g_read t (at_path "exp*")) = [7; 8]) /\
  (let t := fst (g_create two_caches (at_path "exp2") false) in
   snd (g_create two_caches (at_path "exp2") false) = None /\
   g_read (g_sort_by (isort Nat.leb) (g_session 2 3 t (at_path "exp2") [WriteRows [3; 2]; WriteRows [1]; WriteTable [6; 5]]) (at_path "exp2"))
     (at_path "exp2") = [[1; 2; 3]; [5; 6]]) /\
  map (fun s => fnmatch (list_ascii_of_string "a[!b-d]*?") (list_ascii_of_string s)) ["axy"; "ab1"; "ae"; "ae1"; "a]zz1"]%string = [true; false; false; true; true] /\
  fnmatch (list_ascii_of_string "exp[1]") (list_ascii_of_string "exp[1]") = false /\
  fnmatch (list_ascii_of_string "exp[1]") (list_ascii_of_string "exp1") = true /\
  fnmatch (list_ascii_of_string "a[b") (list_ascii_of_string "a[b") = true /\
  fnmatch (list_ascii_of_string "*[]]") (list_ascii_of_string "*[]]") = true.
Proof.
  split. { intros n [<-|[<-|[]]]; vm_compute; intros H; repeat (destruct H as [H|H]; [discriminate|]); exact H. }
  split. { intros n c [<-|[<-|[]]] Hc; vm_compute in Hc; repeat (destruct Hc as [<-|Hc]; [repeat split; discriminate|]); destruct Hc. }
  repeat split; vm_compute; reflexivity.
Qed.

(* For every tree the library builds and every path without brackets: the files counted, sorted
   and deleted for the path are those of the directories whose components it covers. *)
Theorem C119_files :
  forall (A : Type) (t : tree A) p q i, built t -> no_bracket p -> exists_dir t p = true ->
    (In (q, i) (dataset_files t p) <-> Forall2 covers p q /\ In i (map fst (node_files t q))).
Proof. intros A. exact c119_files. Qed.
Print Assumptions C119_files.

(* Deleting a cache empties exactly the other directories its path covers. *)
Theorem C119_delete_reach :
  forall (A : Type) (t : tree A) p q d, built t -> no_bracket p -> lookup t p = Some d -> n_cfg d = true -> q <> p ->
    (Forall2 covers p q -> g_read (fst (g_delete t p)) q = []) /\
    (~ Forall2 covers p q -> lookup (fst (g_delete t p)) q = lookup t q).
Proof. intros A. exact c119_delete_away. Qed.
Print Assumptions C119_delete_reach.

(* Sorting a cache touches no directory its path does not cover. *)
Theorem C119_sort_reach :
  forall (A : Type) srt (t : tree A) p q, built t -> no_bracket p -> ~ Forall2 covers p q ->
    lookup (g_sort_by srt t p) q = lookup t q.
Proof. intros A. exact c119_sort_away. Qed.
Print Assumptions C119_sort_reach.

Example C119_reach_example :
  built two_caches /\ no_bracket (at_path "exp*") /\ exists_dir two_caches (at_path "exp*") = true /\
  Forall2 covers (at_path "exp*") (at_path "exp1") /\ ~ Forall2 covers (at_path "exp1") (at_path "exp*").
Proof.
  split; [apply built_create, built_session, built_create, built_empty|].
  split; [intros n [<-|[<-|[]]] H; cbn in H; intuition discriminate|].
  split; [reflexivity|]. split.
  - constructor; [|constructor; [|constructor]].
    + split; [repeat (apply sf_same; [discriminate|discriminate|]); apply sf_end|intros [r H]; discriminate].
    + split; [|intros [r H]; discriminate]. do 3 (apply sf_same; [discriminate|discriminate|]).
      apply sf_more, sf_none, sf_end.
  - intros H. inversion H as [|a b c d _ H2]; subst. inversion H2 as [|e f g h [H3 _] _]; subst.
    repeat match goal with X : stands_for _ _ |- _ => inversion X; clear X; subst end.
Qed.

(* Brackets: a name with a class stands for the names with one of the characters (or with none
   of them after "!") in its place, a range for the characters between its ends. *)
Theorem C119_class :
  forall lit text post c s, text <> [] -> ~ In "]"%char text -> ~ In "-"%char text -> (forall x, In x lit -> is_magic x = false) ->
    (hd_error text <> Some "!"%char ->
       (fnmatch (lit ++ "["%char :: text ++ "]"%char :: post) (lit ++ c :: s) = true <-> In c text /\ fnmatch post s = true)) /\
    (fnmatch (lit ++ "["%char :: "!"%char :: text ++ "]"%char :: post) (lit ++ c :: s) = true <-> ~ In c text /\ fnmatch post s = true).
Proof. intros lit text post c s H1 H2 H3 H4. split; [intros H5; apply class_name|apply class_name_not]; assumption. Qed.
Print Assumptions C119_class.
Theorem C119_range :
  forall lit x y post c s, x <> "!"%char -> x <> "]"%char -> y <> "]"%char -> (forall z, In z lit -> is_magic z = false) ->
    (fnmatch (lit ++ "["%char :: x :: "-"%char :: y :: "]"%char :: post) (lit ++ c :: s) = true
     <-> (nat_of_ascii x <= nat_of_ascii c <= nat_of_ascii y) /\ fnmatch post s = true).
Proof. exact class_range. Qed.
Print Assumptions C119_range.
(* A cache at a path with such a class never counts, sorts or deletes its own files, in any tree:
   the general form of C119_rows_refuted and C119_delete_refuted. *)
Theorem C119_own_files_refuted :
  forall (A : Type) (t : tree A) p lit text post i, In (lit ++ "["%char :: text ++ "]"%char :: post) p ->
    text <> [] -> ~ In "]"%char text -> ~ In "-"%char text -> hd_error text <> Some "!"%char -> ~ In "["%char text -> (forall x, In x lit -> is_magic x = false) ->
    ~ In (p, i) (dataset_files t p).
Proof. intros A. exact own_class. Qed.
Print Assumptions C119_own_files_refuted.
Example C119_class_example :
  list_ascii_of_string "exp[1]" = list_ascii_of_string "exp" ++ "["%char :: ["1"%char] ++ "]"%char :: [] /\
  (forall x, In x (list_ascii_of_string "exp") -> is_magic x = false) /\
  (let t := g_session 10 10 (fst (g_create [] (at_path "exp[1]") false)) (at_path "exp[1]") [WriteTable [1]] in
   node_files t (at_path "exp[1]") = [(0, [1])] /\ dataset_files t (at_path "exp[1]") = []) /\
  fnmatch (list_ascii_of_string "run[0-4]") (list_ascii_of_string "run3") = true /\
  fnmatch (list_ascii_of_string "run[!ab]x") (list_ascii_of_string "runcx") = true.
Proof.
  split; [reflexivity|]. split; [intros x Hx; cbn in Hx; repeat (destruct Hx as [<-|Hx]; [reflexivity|]); destruct Hx|].
  repeat split; vm_compute; reflexivity.
Qed.

(* Deleting a cache that does not exist does nothing and raises nothing. *)
Theorem C119_delete_missing : forall (A : Type) (t : tree A) p, exists_dir t p = false -> g_delete t p = (t, None).
Proof. intros A. exact delete_missing. Qed.
Print Assumptions C119_delete_missing.
