(* Independent vocabulary used in the statements of the cache properties.
   It mentions only write operations and rows, not writer internals. *)
From Verif Require Import Prelude CacheModel.

(* The rows handed over by one write call. *)
Definition op_rows {A} (o : wop A) : list A :=
  match o with
  | WriteRows r => r
  | WriteBatch b => b
  | WriteTable t => t
  | Flush => []
  end.

(* All rows written by a history, in call order. *)
Definition written {A} (ops : list (wop A)) : list A := concat (map op_rows ops).

(* What a reader returned by to_reader() iterates over after the history [ops],
   when the operating system lists the directory as [listing]. *)
Definition lists_files {A} (bs rpf : nat) (ops : list (wop A)) (listing : dir A) : Prop :=
  Permutation listing (f_dir (file_flush (file_run bs rpf ops))).

Definition is_table {A} (o : wop A) : bool :=
  match o with WriteTable _ => true | _ => false end.

Definition is_flush {A} (o : wop A) : bool :=
  match o with Flush => true | _ => false end.

(* rank of a row in a fragmented table: number of distinct keys in earlier
   fragments plus number of distinct smaller keys in its own fragment *)
Definition distinct_keys {A} (key : A -> Z) (t : list A) : list Z :=
  nodup Z.eq_dec (map key t).

Definition rank_in {A} (key : A -> Z) (before : list (list A)) (frag : list A) (r : A) : nat :=
  list_sum_nat (map (fun f => length (distinct_keys key f)) before)
  + countb (fun k => (k <? key r)%Z) (distinct_keys key frag).

(* rows of rank in [lo, hi), in storage order *)
Fixpoint rows_in_page {A} (key : A -> Z) (lo hi : nat)
    (before rest : list (list A)) : list A :=
  match rest with
  | [] => []
  | f :: rest' =>
      filter (fun r => (lo <=? rank_in key before f r) && (rank_in key before f r <? hi)) f
      ++ rows_in_page key lo hi (before ++ [f]) rest'
  end.

(* keys are fragment-aligned: no key occurs in two fragments *)
Definition aligned {A} (key : A -> Z) (ts : list (list A)) : Prop :=
  forall i j ti tj a b,
    nth_error ts i = Some ti -> nth_error ts j = Some tj ->
    In a ti -> In b tj -> key a = key b -> i = j.

(* a write call (not write_table) of at most [m] rows, or a flush *)
Definition small {A} (m : nat) (o : wop A) : bool :=
  negb (is_table o) && (List.length (op_rows o) <=? m).

(* a write_rows / write_batch call *)
Definition batched {A} (o : wop A) : bool := negb (is_table o) && negb (is_flush o).

(* every write_table is the first operation, or is preceded (up to empty
   write_rows calls) by a flush or another write_table *)
Fixpoint tables_guarded {A} (ok : bool) (ops : list (wop A)) : bool :=
  match ops with
  | [] => true
  | WriteTable _ :: r => ok && tables_guarded true r
  | Flush :: r => tables_guarded true r
  | WriteRows [] :: r => tables_guarded ok r
  | _ :: r => tables_guarded false r
  end.

(* a way of cutting a run into record batches that loses nothing and yields no
   empty batch *)
Definition batching_ok {A} (rebatch : list A -> list (list A)) : Prop :=
  forall l, concat (rebatch l) = l /\ Forall (fun b => b <> []) (rebatch l).
