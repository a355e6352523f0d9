(* Model of the on-disk life cycle of a file cache: create, load, delete.
   The file system is a map from cache paths to nodes; distinct cache paths are
   assumed not to be nested in each other, so creating parent directories
   (mkdir(parents=True)) is not modelled, and to contain no glob characters (PathModel.v).  Every system call that changes the
   disk is one micro-step; a crash leaves the state after any prefix of them. *)
From Verif Require Import Prelude.
From Coq Require Import String.
Local Open Scope nat_scope.
Local Open Scope list_scope.

(* models: cache/persistent.py:337-343 the configuration dictionary.  The schema
   is represented by an arbitrary number; its base64 encoding is never empty. *)
Record config : Type := MkCfg {
  c_batch_size : nat;
  c_rows_per_file : nat;
  c_compression : string;
  c_schema : nat
}.

(* contents of ".cfg": opening with mode "w" truncates it, json.dump fills it *)
Inductive cfg_file : Type := CfgTruncated | CfgWritten (c : config).

(* a directory: ".cfg", "*.parquet" files, any other entries *)
Record directory : Type := MkDir {
  d_cfg : option cfg_file;
  d_parquet : list nat;
  d_other : list nat
}.

Inductive node : Type := NFile | NDir (d : directory).

Definition path := nat.
Definition fs := path -> option node.

Definition fs_set (s : fs) (p : path) (n : option node) : fs :=
  fun q => if Nat.eqb q p then n else s q.

Inductive err : Type :=
| EFileNotFound | ENotADirectory | EKeyError | EJson | EFileExists | ENotEmpty.

(* models: cache/persistent.py:132-137 _retrieve: falsy values are rejected *)
Definition cfg_truthy (c : config) : bool :=
  negb (Nat.eqb (c_batch_size c) 0) && negb (Nat.eqb (c_rows_per_file c) 0)
  && negb (String.eqb (c_compression c) "").

(* models: cache/persistent.py:115-155 FileCacheReader.load *)
Definition load (s : fs) (p : path) : config + err :=
  match s p with
  | None => inr EFileNotFound
  | Some NFile => inr ENotADirectory
  | Some (NDir d) =>
      match d_cfg d with
      | None => inr EFileNotFound
      | Some CfgTruncated => inr EJson
      | Some (CfgWritten c) => if cfg_truthy c then inl c else inr EKeyError
      end
  end.

(* the states on disk after each micro-step, and the outcome *)
Definition trace : Type := list fs * option err.

(* models: cache/persistent.py:364-368: unlink the parquet files one by one *)
Fixpoint unlink_all (s : fs) (p : path) (c : option cfg_file) (files other : list nat) : list fs :=
  match files with
  | [] => []
  | _ :: r =>
      let s' := fs_set s p (Some (NDir (MkDir c r other))) in
      s' :: unlink_all s' p c r other
  end.

Definition last_state (s : fs) (t : list fs) : fs := last t s.

(* models: cache/persistent.py:351-377 FileCacheWriter.delete *)
Definition delete_trace (s : fs) (p : path) : trace :=
  match s p with
  | None => ([], None)
  | Some n =>
      match load s p, n with
      | inr e, _ => ([], Some e)
      | inl _, NFile => ([], Some ENotADirectory)   (* excluded by load *)
      | inl _, NDir d =>
          let t1 := unlink_all s p (d_cfg d) (d_parquet d) (d_other d) in
          let s2 := fs_set (last_state s t1) p (Some (NDir (MkDir None [] (d_other d)))) in
          match d_other d with
          | [] => (t1 ++ [s2; fs_set s2 p None], None)
          | _ :: _ => (t1 ++ [s2], Some ENotEmpty)
          end
      end
  end.

(* models: cache/persistent.py:331-343: mkdir, open(".cfg", "w"), json.dump *)
Definition mkdir_trace (s : fs) (p : path) (c : config) : trace :=
  match s p with
  | Some _ => ([], Some EFileExists)
  | None =>
      let s1 := fs_set s p (Some (NDir (MkDir None [] []))) in
      let s2 := fs_set s1 p (Some (NDir (MkDir (Some CfgTruncated) [] []))) in
      let s3 := fs_set s2 p (Some (NDir (MkDir (Some (CfgWritten c)) [] []))) in
      ([s1; s2; s3], None)
  end.

(* models: cache/persistent.py:299-349 FileCacheWriter.create *)
Definition create_trace (s : fs) (p : path) (c : config) (delete_if_exists : bool) : trace :=
  match s p with
  | Some _ =>
      if delete_if_exists then
        match delete_trace s p with
        | (t1, Some e) => (t1, Some e)
        | (t1, None) =>
            let '(t2, r) := mkdir_trace (last_state s t1) p c in (t1 ++ t2, r)
        end
      else mkdir_trace s p c
  | None => mkdir_trace s p c
  end.

Definition final (s : fs) (t : trace) : fs := last_state s (fst t).
Definition outcome (t : trace) : option err := snd t.

(* the states in which a crash during the operation can leave the disk *)
Definition crash_states (s : fs) (t : trace) : list fs := s :: fst t.

(* a parquet file being added by a writer (persistent.py:448-461, 499-517) *)
Definition add_file (s : fs) (p : path) (i : nat) : fs :=
  match s p with
  | Some (NDir d) => fs_set s p (Some (NDir (MkDir (d_cfg d) (d_parquet d ++ [i]) (d_other d))))
  | _ => s
  end.

(* histories without crashes *)
Inductive fsop : Type :=
| OpCreate (p : path) (c : config) (delete_if_exists : bool)
| OpDelete (p : path)
| OpAddFile (p : path) (i : nat).

Definition fs_step (s : fs) (o : fsop) : fs :=
  match o with
  | OpCreate p c f => final s (create_trace s p c f)
  | OpDelete p => final s (delete_trace s p)
  | OpAddFile p i => add_file s p i
  end.

Definition fs_empty : fs := fun _ => None.
Definition fs_run (ops : list fsop) : fs := fold_left fs_step ops fs_empty.
