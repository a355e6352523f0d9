(* Model of the metadata of classification data: the dictionaries written by the
   loader, the columns kept by the schema, and the filter on them.  Definitions only. *)
From Verif Require Import Prelude Counting ClsModel DetMetaModel.
From Coq Require Import String.
Local Open Scope string_scope.
Local Open Scope list_scope.

(* models: classification/annotation.py:7-45 with the metadata attribute; None and {}
   behave alike (classification/loader.py:63-65) *)
Record mcls : Type := MkMCls { mc_cls : classification; mc_meta : mdict }.

(* models: classification/shared.py:36-62 generate_schema: names of the columns; [None]
   = ValueError *)
Definition cls_schema (fields : list (string * string)) : option (list string) := generate_schema reserved_fields fields.

(* models: classification/loader.py:15-29 *)
Record mcloader : Type := MkMCL { mcl_labels : list string; mcl_count : nat; mcl_writes : list (list mdict) }.
Definition mcloader_init : mcloader := MkMCL [] 0 [].

(* models: classification/loader.py:71-92, the loop over the candidates *)
Fixpoint m_build_rows (m : mcls) (datum : nat) (gidx mx i : nat)
    (labels : list string) (ps : list (string * Z)) : list string * list mdict :=
  let c := mc_cls m in
  match ps with
  | [] => (labels, [])
  | (pl, s) :: t =>
      let '(labels1, pidx) := add_label labels pl in
      let '(labels2, rows) := m_build_rows m datum gidx mx (S i) labels1 t in
      (labels2,
       dmerge (mc_meta m)
         [("datum_uid", VStr (c_uid c)); ("datum_id", VInt (Z.of_nat datum));
          ("gt_label", VStr (c_groundtruth c)); ("gt_label_id", VInt (Z.of_nat gidx));
          ("pd_label", VStr pl); ("pd_label_id", VInt (Z.of_nat pidx)); ("pd_score", VNum s);
          ("pd_winner", VBool (Nat.eqb mx i)); ("match", VBool (Nat.eqb gidx pidx))] :: rows)
  end.
(* models: classification/loader.py:56-97, one iteration of add_data; [None] = ValueError
   for empty predictions; the rows are stored under the schema of the writer *)
Definition m_add_one (schema : list string) (l : mcloader) (m : mcls) : option mcloader :=
  let c := mc_cls m in
  match c_predictions c with
  | [] => None
  | _ :: _ =>
      let '(labels1, gidx) := add_label (mcl_labels l) (c_groundtruth c) in
      let mx := argmax (c_scores c) in
      let '(labels2, rows) :=
        m_build_rows m (mcl_count l) gidx mx 0 labels1 (combine (c_predictions c) (c_scores c)) in
      Some (MkMCL labels2 (S (mcl_count l)) (mcl_writes l ++ [map (stored schema) rows]))
  end.
(* models: classification/loader.py:39-97 add_data ([false] = ValueError) *)
Fixpoint m_add_data (schema : list string) (l : mcloader) (ms : list mcls) : mcloader * bool :=
  match ms with
  | [] => (l, true)
  | m :: t => match m_add_one schema l m with
              | Some l' => m_add_data schema l' t
              | None => (l, false)
              end
  end.

(* models: classification/evaluator.py:450-495, one table with metadata columns *)
Definition mc_filter_table (gts pds : option (mdict -> bool)) (t : list mdict) : list mdict :=
  let valid_gt x := match gts with None => true | Some f => existsb (agree ["datum_id"; "gt_label_id"] x) (filter f t) end in
  let valid_pd x := match pds with None => true | Some f => existsb (agree ["datum_id"; "pd_label_id"] x) (filter f t) end in
  filter (fun x => valid_gt x && valid_pd x) t.
Definition mc_filter_tables (datums : mdict -> bool) (gts pds : option (mdict -> bool)) (tables : list (list mdict)) : list (list mdict) :=
  map (fun t => mc_filter_table gts pds (filter datums t)) tables.
