(* Model of where a file cache looks for its files: the directory tree, glob patterns
   (Python's glob and fnmatch) and the operations of FileCacheWriter at a path.
   Definitions only; no proofs in this file. *)
From Verif Require Import Prelude CacheModel.
From Coq Require Import Ascii.
Local Open Scope nat_scope.
Local Open Scope list_scope.

(* ------------------------------------------------------------------ *)
(** * fnmatch, glob *)

(* A file name and a directory: the components below the root (or below the current
   directory).  A component is a non-empty sequence of characters without "/". *)
Notation name := (list ascii).
Notation dpath := (list (list ascii)).

(* the tokens of a shell pattern (Python's fnmatch.translate, 3.12); a class holds ranges,
   a single character being the range from itself to itself *)
Inductive token : Type :=
| TStar
| TAny
| TLit (c : ascii)
| TClass (negated : bool) (ranges : list (ascii * ascii)).

(* the text up to the first "]" and the text after it *)
Fixpoint upto_close (l : name) : option (name * name) :=
  match l with
  | [] => None
  | c :: r => if Ascii.eqb c "]" then Some ([], r)
              else match upto_close r with Some (a, b) => Some (c :: a, b) | None => None end
  end.

(* after "[": an optional "!", then a "]" that does not close, then the rest of the class;
   [None]: no closing bracket, so the "[" stands for itself *)
Definition class_text (l : name) : option (bool * name * name) :=
  let '(neg, l1) := match l with
                    | c :: r => if Ascii.eqb c "!" then (true, r) else (false, l)
                    | [] => (false, l)
                    end in
  match l1 with
  | c :: r => if Ascii.eqb c "]"
              then match upto_close r with Some (a, b) => Some (neg, c :: a, b) | None => None end
              else match upto_close l1 with Some (a, b) => Some (neg, a, b) | None => None end
  | [] => None
  end.

Fixpoint class_ranges (l : name) : list (ascii * ascii) :=
  match l with
  | [] => []
  | c :: t =>
      match t with
      | h :: d :: r => if Ascii.eqb h "-" then (c, d) :: class_ranges r else (c, c) :: class_ranges t
      | _ => (c, c) :: class_ranges t
      end
  end.

(* [fuel]: one token takes at least one character, so the length of the pattern is enough *)
Fixpoint tokens (fuel : nat) (l : name) : list token :=
  match fuel with
  | 0 => []
  | S n =>
      match l with
      | [] => []
      | c :: r =>
          if Ascii.eqb c "*" then TStar :: tokens n r
          else if Ascii.eqb c "?" then TAny :: tokens n r
          else if Ascii.eqb c "[" then
            match class_text r with
            | Some (neg, text, r') => TClass neg (class_ranges text) :: tokens n r'
            | None => TLit c :: tokens n r
            end
          else TLit c :: tokens n r
      end
  end.

Definition in_range (c : ascii) (r : ascii * ascii) : bool :=
  (nat_of_ascii (fst r) <=? nat_of_ascii c) && (nat_of_ascii c <=? nat_of_ascii (snd r)).

Definition token_takes (t : token) (c : ascii) : bool :=
  match t with
  | TStar => true
  | TAny => true
  | TLit d => Ascii.eqb c d
  | TClass neg rs => xorb neg (existsb (in_range c) rs)
  end.

Fixpoint suffixes (s : name) : list name :=
  s :: match s with [] => [] | _ :: r => suffixes r end.

Fixpoint tokens_match (ts : list token) (s : name) : bool :=
  match ts with
  | [] => match s with [] => true | _ => false end
  | TStar :: r => existsb (tokens_match r) (suffixes s)
  | t :: r => match s with c :: s' => token_takes t c && tokens_match r s' | [] => false end
  end.

(* Python: fnmatch.fnmatchcase *)
Definition fnmatch (pat s : name) : bool := tokens_match (tokens (length pat) pat) s.

(* Python: glob.has_magic *)
Definition is_magic (c : ascii) : bool := Ascii.eqb c "*" || Ascii.eqb c "?" || Ascii.eqb c "[".
Definition has_magic (n : name) : bool := existsb is_magic n.

(* Python: glob._ishidden, glob._glob1: names with a leading dot need a pattern with one *)
Definition hidden (n : name) : bool := match n with c :: _ => Ascii.eqb c "." | [] => false end.
Definition matches (pat n : name) : bool := (hidden pat || negb (hidden n)) && fnmatch pat n.

Section Tree.
  Context {A : Type}.   (* a table row *)

  (* a directory: whether a configuration file is there, and the parquet files.  Other
     entries are not modelled (LifecycleModel.v has them). *)
  Record dnode : Type := MkNode { n_cfg : bool; n_files : dir A }.

  Definition tree : Type := list (dpath * dnode).

  Definition name_eqb (a b : name) : bool := if list_eq_dec ascii_dec a b then true else false.
  Definition path_eqb (p q : dpath) : bool := if list_eq_dec (list_eq_dec ascii_dec) p q then true else false.

  Definition lookup (t : tree) (p : dpath) : option dnode :=
    option_map snd (find (fun e => path_eqb (fst e) p) t).
  Definition exists_dir (t : tree) (p : dpath) : bool :=
    match lookup t p with Some _ => true | None => false end.
  Definition update (t : tree) (p : dpath) (f : dnode -> dnode) : tree :=
    map (fun e => if path_eqb (fst e) p then (fst e, f (snd e)) else e) t.
  Definition remove_dir (t : tree) (p : dpath) : tree := filter (fun e => negb (path_eqb (fst e) p)) t.

  (* os.scandir: the names of the directories in [p] *)
  Definition children (t : tree) (p : dpath) : list name :=
    flat_map (fun e => match rev (fst e) with
                       | n :: r => if path_eqb (rev r) p then [n] else []
                       | [] => []
                       end) t.

  (* Python: glob._iglob on the directory part of a pattern.  [plain_prefix]: the components
     before the first one with magic are taken as they are; afterwards a component with magic
     stands for the matching directories and one without for itself if it exists. *)
  Fixpoint plain_prefix (p : dpath) : dpath * dpath :=
    match p with
    | [] => ([], [])
    | c :: r => if has_magic c then ([], p) else let '(a, b) := plain_prefix r in (c :: a, b)
    end.

  Fixpoint expand (t : tree) (bases : list dpath) (rest : dpath) : list dpath :=
    match rest with
    | [] => bases
    | c :: r =>
        expand t (flat_map (fun b =>
          if has_magic c then map (fun n => b ++ [n]) (filter (matches c) (children t b))
          else if exists_dir t (b ++ [c]) then [b ++ [c]] else []) bases) r
    end.

  Definition glob_dirs (t : tree) (p : dpath) : list dpath :=
    let '(a, b) := plain_prefix p in expand t [a] b.

  Definition node_files (t : tree) (p : dpath) : dir A :=
    match lookup t p with Some d => n_files d | None => [] end.

  (* models: cache/persistent.py:98-111 get_dataset_files: glob.glob(f"{path}/*.parquet").
     The parquet files carry the numbers the library gives them. *)
  Definition dataset_files (t : tree) (p : dpath) : list (dpath * nat) :=
    if exists_dir t p
    then flat_map (fun d => map (fun e => (d, fst e)) (node_files t d)) (glob_dirs t p)
    else [].

  (* models: cache/persistent.py:76-78 count_tables *)
  Definition count_tables (t : tree) (p : dpath) : nat := length (dataset_files t p).

  (* ------------------------------------------------------------------ *)
  (** * The writer at a path *)

  (* models: cache/persistent.py:499-506 _generate_next_filename *)
  Definition next_number (t : tree) (p : dpath) : nat :=
    match dataset_files t p with
    | [] => 0
    | fs => S (fold_right Nat.max 0 (map snd fs))
    end.

  (* opening path/NNNNNN.parquet for writing: a file of that name is emptied *)
  Definition open_file (d : dir A) (i : nat) : dir A :=
    if existsb (fun e => Nat.eqb (fst e) i) d
    then map (fun e => if Nat.eqb (fst e) i then (i, []) else e) d
    else d ++ [(i, [])].

  Definition on_files (f : dir A -> dir A) (d : dnode) : dnode := MkNode (n_cfg d) (f (n_files d)).

  (* models: cache/persistent.py:294-297 the attributes of a writer *)
  Record gwriter : Type := MkW { w_open : option nat; w_buffer : list (list A); w_count : nat }.
  Definition w_init : gwriter := MkW None [] 0.

  (* models: cache/persistent.py:508-517 _get_or_create_writer, then ParquetWriter.write_batch *)
  Definition g_append (p : dpath) (s : tree * gwriter) (rows : list A) : tree * gwriter :=
    let '(t, w) := s in
    let '(t1, i) := match w_open w with
                    | Some i => (t, i)
                    | None => let i := next_number t p in
                              (update t p (on_files (fun d => open_file d i)), i)
                    end in
    (update t1 p (on_files (fun d => append_file d i rows)), MkW (Some i) (w_buffer w) (w_count w)).

  (* models: cache/persistent.py:463-477 flush and 519-523 _close_writer *)
  Definition g_flush (p : dpath) (s : tree * gwriter) : tree * gwriter :=
    let s' := match w_buffer (snd s) with
              | [] => s
              | _ :: _ => g_append p s (concat (w_buffer (snd s)))
              end in
    (fst s', w_init).

  (* models: cache/persistent.py:413-446 write_batch *)
  Definition g_write_batch (bs rpf : nat) (p : dpath) (s : tree * gwriter) (b : list A) : tree * gwriter :=
    let '(t, w) := s in
    let size := length b + list_sum_nat (map (@length A) (w_buffer w)) in
    if (size <? bs) && (w_count w <? rpf)
    then (t, MkW (w_open w) (w_buffer w ++ [b]) (w_count w))
    else
      let batch := match w_buffer w with
                   | [] => b
                   | _ :: _ => concat (w_buffer w ++ [b])
                   end in
      let '(t2, w2) := g_append p (t, MkW (w_open w) [] (w_count w)) batch in
      let w3 := MkW (w_open w2) (w_buffer w2) (w_count w2 + size) in
      if rpf <=? w_count w3 then g_flush p (t2, w3) else (t2, w3).

  (* models: cache/persistent.py:379-394 write_rows *)
  Definition g_write_rows (bs rpf : nat) (p : dpath) (s : tree * gwriter) (rows : list A) : tree * gwriter :=
    match rows with
    | [] => s
    | _ :: _ => g_write_batch bs rpf p s rows
    end.

  (* models: cache/persistent.py:448-461 write_table *)
  Definition g_write_table (p : dpath) (s : tree * gwriter) (rows : list A) : tree * gwriter :=
    let '(t, w) := g_flush p s in
    let i := next_number t p in
    (update t p (on_files (fun d => append_file (open_file d i) i rows)), w).

  Definition g_step (bs rpf : nat) (p : dpath) (s : tree * gwriter) (o : wop A) : tree * gwriter :=
    match o with
    | WriteRows r => g_write_rows bs rpf p s r
    | WriteBatch b => g_write_batch bs rpf p s b
    | WriteTable t => g_write_table p s t
    | Flush => g_flush p s
    end.

  (* a new writer at [p], the calls [ops], then the flush of to_reader *)
  Definition g_session (bs rpf : nat) (t : tree) (p : dpath) (ops : list (wop A)) : tree :=
    fst (g_flush p (fold_left (g_step bs rpf p) ops (t, w_init))).

  (* models: cache/persistent.py:157-194: the reader opens the directory itself, without a
     pattern, and orders the files by number *)
  Definition g_read (t : tree) (p : dpath) : list (list A) := file_tables (node_files t p).

  (* models: cache/persistent.py:479-497 sort_by; [srt] is arrow's sort_by *)
  Definition sort_file (srt : list A -> list A) (t : tree) (f : dpath * nat) : tree :=
    update t (fst f) (on_files (map (fun e => if Nat.eqb (fst e) (snd f) then (fst e, srt (snd e)) else e))).
  Definition g_sort_by (srt : list A -> list A) (t : tree) (p : dpath) : tree :=
    fold_left (sort_file srt) (dataset_files t p) t.

  (* ------------------------------------------------------------------ *)
  (** * create and delete *)

  Inductive perr : Type := PNotFound | PExists | PNotEmpty.

  Definition unlink (t : tree) (f : dpath * nat) : tree :=
    update t (fst f) (on_files (filter (fun e => negb (Nat.eqb (fst e) (snd f))))).

  (* models: cache/persistent.py:351-377 delete.  Without a configuration file load raises
     FileNotFoundError; rmdir raises OSError when an entry is left. *)
  Definition g_delete (t : tree) (p : dpath) : tree * option perr :=
    match lookup t p with
    | None => (t, None)
    | Some d =>
        if negb (n_cfg d) then (t, Some PNotFound)
        else
          let t1 := fold_left unlink (dataset_files t p) t in
          let t2 := update t1 p (fun d => MkNode false (n_files d)) in
          match node_files t2 p, children t2 p with
          | [], [] => (remove_dir t2 p, None)
          | _, _ => (t2, Some PNotEmpty)
          end
    end.

  (* mkdir(parents=True): the missing directories on the way to [p] *)
  Fixpoint make_dirs (t : tree) (base rest : dpath) : tree :=
    match rest with
    | [] => t
    | c :: r =>
        let b := base ++ [c] in
        make_dirs (if exists_dir t b then t else t ++ [(b, MkNode false [])]) b r
    end.

  (* models: cache/persistent.py:299-349 create *)
  Definition g_create (t : tree) (p : dpath) (delete_if_exists : bool) : tree * option perr :=
    let '(t1, e) := if delete_if_exists && exists_dir t p then g_delete t p else (t, None) in
    match e with
    | Some _ => (t1, e)
    | None =>
        if exists_dir t1 p then (t1, Some PExists)
        else (update (make_dirs t1 [] p) p (fun d => MkNode true (n_files d)), None)
    end.
End Tree.

Arguments dnode A : clear implicits.
Arguments tree A : clear implicits.
