(* C129: the tables and arrays read from a cache are the columns that were asked for.
   Vocabulary: ReadSpec.v.  Model: ReadModel.v. *)
From Verif Require Import Prelude FloatModel FReportModel FBoxMain ReadModel ReadSpec ReadProofs.
From Coq Require Import String QArith.
Local Notation length := List.length (only parsing).
Local Notation concat := List.concat (only parsing).
Local Open Scope nat_scope.
Local Open Scope list_scope.

(* ---------------------------------------------------------------- C129 *)
(* full claim: iterate_tables, iterate_arrays and iterate_tables_with_arrays return the
   requested columns of the selected rows, in the requested order, whichever arguments are
   left out.  Proved for integers up to 2^53 (or columns that are all integers) and with
   numeric columns given; refuted otherwise *)
Theorem C129_tables :
  forall prune, sound_pruning prune -> forall c, cache_ok c ->
  forall names filt, (forall n, In n names -> In n (map fst (ca_schema c))) ->
  exists ts, iterate_tables prune c (Some names) filt = Some ts /\ concat (map tb_rows ts) = selected c filt /\
    forall t, In t ts -> map fst (tb_cols t) = names /\ forall n ty, In (n, ty) (tb_cols t) -> In (n, ty) (ca_schema c).
Proof. exact read_tables. Qed.
Print Assumptions C129_tables.

Theorem C129_arrays_partial :
  forall prune, sound_pruning prune -> forall c, cache_ok c ->
  forall names filt, numeric_in c names ->
  exists arrs, iterate_arrays prune c (Some names) filt = Some arrs /\
    (forall a, In a arrs -> (ar_type a = TInt <-> integers c names) /\ (ar_type a = TFloat <-> ~ integers c names)) /\
    Forall2 (fun line r => length line = length names /\
        forall k n, nth_error names k = Some n -> exists v, nth_error line k = Some v /\ (integers c names \/ holdable (r n) -> same_number v (r n)))
      (concat (map ar_rows arrs)) (selected c filt).
Proof. exact read_arrays. Qed.
Print Assumptions C129_arrays_partial.

(* both at once: the arrays of iterate_arrays, and tables with the union of the columns *)
Theorem C129_both_partial :
  forall prune, sound_pruning prune -> forall c, cache_ok c -> forall set_order, set_orders set_order ->
  forall columns names filt, numeric_in c names -> (forall n, In n columns -> In n (map fst (ca_schema c))) ->
  exists ps, iterate_tables_with_arrays prune set_order c (Some columns) (Some names) filt = Some ps /\
    iterate_arrays prune c (Some names) filt = Some (map snd ps) /\
    concat (map tb_rows (map fst ps)) = selected c filt /\
    forall t, In t (map fst ps) -> NoDup (map fst (tb_cols t)) /\ forall n, In n (map fst (tb_cols t)) <-> In n columns \/ In n names.
Proof. exact read_both. Qed.
Print Assumptions C129_both_partial.

(* the same rows cut into other files, or in memory *)
Theorem C129_storage :
  forall prune prune' c c' names filt, sound_pruning prune -> sound_pruning prune' -> cache_ok c -> cache_ok c' ->
  ca_schema c = ca_schema c' -> concat (ca_files c) = concat (ca_files c') -> numeric_in c names ->
  exists a a', iterate_arrays prune c (Some names) filt = Some a /\ iterate_arrays prune' c' (Some names) filt = Some a' /\
    concat (map ar_rows a) = concat (map ar_rows a') /\ forall x x', In x a -> In x' a' -> ar_type x = ar_type x'.
Proof. exact read_storage. Qed.
Print Assumptions C129_storage.

Theorem C129_counts :
  forall prune c, cache_ok c ->
  count_rows c = length (selected c None) /\
  forall columns, (forall n, In n columns -> In n (map fst (ca_schema c))) ->
    exists ts, iterate_tables prune c (Some columns) None = Some ts /\ length ts = count_tables c.
Proof. exact read_counts. Qed.
Print Assumptions C129_counts.

Definition read_row (u : string) (d : Z) (s : Q) : row := fun n =>
  if String.eqb n "uid" then VText u else if String.eqb n "datum_id" then VInt d else VFloat s.
Definition read_schema : list (string * ctype) := [("uid", TText); ("datum_id", TInt); ("score", TFloat)]%string.
Definition read_rows : list row := [read_row "a" 0 (1 # 2); read_row "b" 1 (1 # 4); read_row "c" 2 (3 # 4)]%string.
Definition read_mem (rows : list row) : cache := MkCache read_schema [rows] true.
Definition read_files : cache := MkCache read_schema [firstn 2 read_rows; skipn 2 read_rows] false.
Definition late (r : row) : bool := match r "datum_id"%string with VInt z => (2 <=? z)%Z | _ => false end.
Definition once (l : list string) : list string := nodup string_dec l.
Definition empty_only (x : list row) (f : row -> bool) : bool := negb (existsb f x).
Lemma read_typed rows : (exists us, rows = map (fun u => read_row (fst (fst u)) (snd (fst u)) (snd u)) us) -> forall m fs, concat fs = rows ->
  (m = true -> length fs = 1) -> cache_ok (MkCache read_schema fs m).
Proof.
  intros (us & ->) m fs E Hm. split; [exact Hm|]. split; [cbn; repeat constructor; cbn; intuition discriminate|].
  cbn [ca_files ca_schema]. rewrite E. intros r n t Hr Hn. apply in_map_iff in Hr. destruct Hr as ([[u d] s] & <- & _). cbn in Hn.
  destruct Hn as [H|[H|[H|[]]]]; injection H as <- <-; exact I.
Qed.
Example C129_example :
  cache_ok (read_mem read_rows) /\ cache_ok read_files /\ sound_pruning empty_only /\ set_orders once /\
  numeric_in read_files ["score"; "datum_id"]%string /\ concat (ca_files read_files) = concat (ca_files (read_mem read_rows)) /\
  iterate_arrays empty_only read_files (Some ["score"; "datum_id"]%string) (Some late) = Some [MkArray TFloat [[VFloat (3 # 4); VFloat (2 ^ 52 # (2 ^ 51))]]] /\
  option_map (map snd) (iterate_tables_with_arrays empty_only once read_files (Some ["uid"]%string) (Some ["datum_id"]%string) None)
    = Some [MkArray TInt [[VInt 0]; [VInt 1]]; MkArray TInt [[VInt 2]]] /\
  iterate_arrays empty_only read_files (Some ["nothing"]%string) None = None.
Proof.
  assert (R : exists us, read_rows = map (fun u => read_row (fst (fst u)) (snd (fst u)) (snd u)) us).
  { exists [("a", 0%Z, 1 # 2); ("b", 1%Z, 1 # 4); ("c", 2%Z, 3 # 4)]%string. reflexivity. }
  split; [exact (read_typed read_rows R true [read_rows] eq_refl (fun _ => eq_refl))|].
  split; [apply (read_typed read_rows R false [firstn 2 read_rows; skipn 2 read_rows]); [reflexivity|discriminate]|].
  split.
  { intros x f H r Hr. unfold empty_only in H. apply negb_true_iff in H. destruct (f r) eqn:E; [|reflexivity].
    assert (existsb f x = true) by (apply existsb_exists; eauto). congruence. }
  split; [intros l; split; [apply NoDup_nodup|intros n; apply nodup_In]|].
  split; [split; [discriminate|]; intros n [<-|[<-|[]]]; [exists TFloat|exists TInt]; cbn; (split; [auto|discriminate])|].
  split; [reflexivity|]. split; [vm_compute; reflexivity|]. split; vm_compute; reflexivity.
Qed.

(* iterate_tables_with_arrays documents its columns and numeric columns as optional, but
   without numeric columns it raises on every cache in memory *)
Theorem C129_optional_refuted :
  forall prune c, cache_ok c -> forall set_order columns filt, ca_memory c = true ->
  iterate_tables_with_arrays prune set_order c columns None filt = None /\
  iterate_tables_with_arrays prune set_order c columns (Some []) filt = None.
Proof. exact read_no_numeric. Qed.
Print Assumptions C129_optional_refuted.

(* in an array with a float column, the integers 2^53 and 2^53 + 1 are the same number *)
Theorem C129_large_refuted :
  exists c names d d' r r', cache_ok c /\ numeric_in c names /\ ca_files c = [[r; r']] /\
    r "datum_id"%string = VInt d /\ r' "datum_id"%string = VInt d' /\ d <> d' /\
    forall prune, exists x, iterate_arrays prune c (Some names) None = Some [MkArray TFloat [x; x]].
Proof.
  exists (read_mem [read_row "a" (2 ^ 53) 0; read_row "a" (2 ^ 53 + 1) 0]%string), ["datum_id"; "score"]%string, (2 ^ 53)%Z, (2 ^ 53 + 1)%Z. do 2 eexists.
  split.
  { apply (read_typed [read_row "a" (2 ^ 53) 0; read_row "a" (2 ^ 53 + 1) 0]%string); [|reflexivity|reflexivity].
    exists [("a", (2 ^ 53)%Z, 0%Q); ("a", (2 ^ 53 + 1)%Z, 0%Q)]%string. reflexivity. }
  split; [split; [discriminate|]; intros n [<-|[<-|[]]]; [exists TInt|exists TFloat]; cbn; (split; [auto|discriminate])|].
  split; [reflexivity|]. split; [reflexivity|]. split; [reflexivity|]. split; [discriminate|].
  intros prune. eexists. vm_compute. reflexivity.
Qed.
Print Assumptions C129_large_refuted.
