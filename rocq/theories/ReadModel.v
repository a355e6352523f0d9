(* Model of reading columns of a cache as tables and numpy arrays.  Definitions only. *)
From Verif Require Import Prelude FloatModel FReportModel.
From Coq Require Import String QArith.
Local Notation length := List.length (only parsing).
Local Notation concat := List.concat (only parsing).
Local Open Scope nat_scope.
Local Open Scope list_scope.

(* pyarrow types of the columns that occur: int64, float64, string (no nulls) *)
Inductive ctype : Type := TInt | TFloat | TText.
Inductive cval : Type := VInt (z : Z) | VFloat (q : Q) | VText (s : string).
(* a row: its values by column name (only names of the schema are looked up) *)
Notation row := (string -> cval).
(* pa.Table: columns in order, rows *)
Record table : Type := MkTable { tb_cols : list (string * ctype); tb_rows : list row }.

Definition col_type (cols : list (string * ctype)) (n : string) : option ctype :=
  option_map snd (find (fun c => String.eqb (fst c) n) cols).
Fixpoint all_some {A} (l : list (option A)) : option (list A) :=
  match l with
  | [] => Some []
  | None :: _ => None
  | Some x :: t => option_map (cons x) (all_some t)
  end.
(* Table.select and the columns argument of Fragment.to_table: the named columns in the
   order of the list; an unknown name raises, here [None] *)
Definition select (names : list string) (t : table) : option table :=
  match all_some (map (fun n => option_map (pair n) (col_type (tb_cols t) n)) names) with
  | Some cols => Some (MkTable cols (tb_rows t))
  | None => None
  end.

(* a cache: its schema and the rows of its files in the order of their numbers (for the
   in-memory cache a single table); [prune] stands for Dataset.get_fragments(filter), which
   may leave out files whose statistics exclude the filter *)
Record cache : Type := MkCache { ca_schema : list (string * ctype); ca_files : list (list row); ca_memory : bool }.

Section Read.
  Variable prune : list row -> (row -> bool) -> bool.
  (* models: cache/ephemeral.py:36-60 iterate_tables (memory), cache/persistent.py:155-194
     iterate_ordered_fragments, iterate_tables (files) *)
  Definition iterate_tables (c : cache) (columns : option (list string)) (filt : option (row -> bool)) : option (list table) :=
    let files := match filt with
                 | Some f => if ca_memory c then ca_files c else filter (fun x => negb (prune x f)) (ca_files c)
                 | None => ca_files c
                 end in
    all_some (map (fun x =>
      let t := MkTable (ca_schema c) (match filt with Some f => filter f x | None => x end) in
      match columns with Some names => select names t | None => Some t end) files).

  (* ndarray: its element type and rows; TText stands for any element type that is not a
     number *)
  Record array : Type := MkArray { ar_type : ctype; ar_rows : list (list cval) }.
  (* numpy's common element type of the columns, and the conversion to it: an int64 becomes
     the nearest float64 *)
  Definition join (a b : ctype) : ctype :=
    match a, b with
    | TText, _ | _, TText => TText
    | TInt, TInt => TInt
    | _, _ => TFloat
    end.
  Definition convert (t : ctype) (v : cval) : cval :=
    match t, v with TFloat, VInt z => VFloat (srnd (inject_Z z)) | _, _ => v end.
  (* np.column_stack of the named columns; an empty list raises *)
  Definition column_stack (t : table) (cols : list (string * ctype)) : option array :=
    match cols with
    | [] => None
    | c :: rest =>
        let ty := fold_left join (map snd rest) (snd c) in
        Some (MkArray ty (map (fun r => map (fun n => convert ty (r (fst n))) cols) (tb_rows t)))
    end.

  (* models: cache/ephemeral.py:62-84, cache/persistent.py:196-221 iterate_arrays *)
  Definition iterate_arrays (c : cache) (numeric : option (list string)) (filt : option (row -> bool)) : option (list array) :=
    match iterate_tables c numeric filt with
    | None => None
    | Some ts => all_some (map (fun t => column_stack t (tb_cols t)) ts)
    end.

  (* the iteration order of a set of names *)
  Variable set_order : list string -> list string.
  (* models: cache/ephemeral.py:86-120, cache/persistent.py:223-257
     iterate_tables_with_arrays: an absent or empty list of columns is the empty set; without
     numeric columns [tbl.columns] (the columns, not their names) are used as keys, which
     raises, as does the empty list *)
  Definition iterate_tables_with_arrays (c : cache) (columns numeric : option (list string)) (filt : option (row -> bool))
      : option (list (table * array)) :=
    let some l := match l with Some x => x | None => [] end in
    match iterate_tables c (Some (set_order (some columns ++ some numeric))) filt with
    | None => None
    | Some ts =>
        all_some (map (fun t =>
          match some numeric with
          | [] => None
          | names =>
              match select names t with
              | Some t' => option_map (pair t) (column_stack t (tb_cols t'))
              | None => None
              end
          end) ts)
    end.

  (* models: cache/ephemeral.py:26-32, cache/persistent.py:68-78 count_tables, count_rows *)
  Definition count_tables (c : cache) : nat := if ca_memory c then 1 else length (ca_files c).
  Definition count_rows (c : cache) : nat := length (concat (ca_files c)).
End Read.
