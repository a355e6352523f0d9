(* Model of the object detection Loader/Builder life cycle: add_* and finalize over
   the in-memory and the file-backed caches, and the labels read back from rows. *)
From Verif Require Import Prelude CacheModel Counting ClsModel FlowModel DetModel.
From Coq Require String.
Local Open Scope nat_scope.
Local Open Scope list_scope.

(* ------------------------------------------------------------------ *)
(** * Labels read back from the rows *)

(* Python dict: insertion ordered, one entry per key; a value may be None *)
Notation ldict := (list (Z * option String.string)).
Fixpoint ldict_get (d : ldict) (k : Z) : option (option String.string) :=
  match d with
  | [] => None
  | (k', v) :: t => if (k =? k')%Z then Some v else ldict_get t k
  end.
Fixpoint ldict_set (d : ldict) (k : Z) (v : option String.string) : ldict :=
  match d with
  | [] => [(k, v)]
  | (k', v') :: t => if (k =? k')%Z then (k, v) :: t else (k', v') :: ldict_set t k v
  end.
Definition ldict_update (d d' : ldict) : ldict :=
  fold_left (fun acc kv => ldict_set acc (fst kv) (snd kv)) d' d.
Definition ldict_pop (d : ldict) (k : Z) : ldict := filter (fun kv => negb (fst kv =? k)%Z) d.

(* np.unique(ids, return_index=True): ascending ids, each with the label of its
   first occurrence *)
Definition det_first_label {A} (idc : A -> Z) (lbc : A -> option String.string) (t : list A) (k : Z)
    : list (Z * option String.string) :=
  match find (fun r => (idc r =? k)%Z) t with
  | Some r => [(k, lbc r)]
  | None => []      (* unreachable: k is taken from the column *)
  end.
Definition det_table_labels {A} (idc : A -> Z) (lbc : A -> option String.string) (t : list A) : ldict :=
  ldict_pop (concat (map (det_first_label idc lbc t) (isort Z.leb (nodup Z.eq_dec (map idc t))))) (-1).

(* models: object_detection/shared.py:124-157 extract_labels without override *)
Definition det_extract_labels (tables : list (list drow)) : ldict :=
  fold_left
    (fun d t => ldict_update (ldict_update d (det_table_labels d_gl d_gt_label t))
                             (det_table_labels d_pl d_pd_label t))
    tables [].

(* ------------------------------------------------------------------ *)
(** * Builders *)

Section Builders.
  Variables (eps unit : Z).

  (* models: object_detection/loader.py:49-189: the writer calls of one add_* call;
     the loader state is kept with an empty log ([None]: exception) *)
  Definition det_calls (l : dloader) (ds : list detection) : option dloader :=
    add_detections eps (MkDL (l_labels l) (l_datums l) (l_gts l) (l_pds l) []) ds.

  (* ---------------------------------------------------------------- memory *)
  Record dmb : Type := MkDMB { dmb_loader : dloader; dmb_detailed : mem_state drow; dmb_ranked : mem_state drow }.
  (* models: object_detection/evaluator.py:61-91 in_memory *)
  Definition dmb_init : dmb := MkDMB dloader_init mem_init mem_init.
  Record deval : Type := MkDE { de_detailed : list (list drow); de_ranked : list (list drow); de_labels : ldict }.

  Definition dmb_add (bs : nat) (b : dmb) (ds : list detection) : option dmb :=
    match det_calls (dmb_loader b) ds with
    | None => None
    | Some l => Some (MkDMB l (fold_left (mem_write_rows bs) (l_writes l) (dmb_detailed b)) (dmb_ranked b))
    end.

  (* models: object_detection/evaluator.py:169-210 finalize on memory writers; there
     is no check for an earlier finalize *)
  Definition dmb_finalize (bs : nat) (rebatch : list drow -> list (list drow)) (b : dmb)
      : dmb * fresult deval :=
    let w := mem_flush (dmb_detailed b) in
    if Nat.eqb (length (m_table w)) 0 then (MkDMB (dmb_loader b) w (dmb_ranked b), EmptyCache)
    else
      let w2 := mem_sort_by (table_sort_by det_sorting) w in
      let tbl := mem_read w2 in
      match rank_ops unit KMem bs bs rebatch [tbl] with
      | None => (MkDMB (dmb_loader b) w2 (dmb_ranked b), SortFailed)
      | Some ops =>
          let ranked := mem_flush (fold_left (mem_step bs) ops (dmb_ranked b)) in
          (MkDMB (dmb_loader b) w2 ranked,
           Done (MkDE [tbl] [mem_read ranked] (det_extract_labels [tbl])))
      end.

  (* ----------------------------------------------------------------- files *)
  Record dfb : Type := MkDFB { dfb_loader : dloader; dfb_detailed : file_state drow; dfb_ranked : file_state drow }.
  (* models: object_detection/evaluator.py:93-145 persistent *)
  Definition dfb_init : dfb := MkDFB dloader_init file_init file_init.

  Definition dfb_add (bs rpf : nat) (b : dfb) (ds : list detection) : option dfb :=
    match det_calls (dfb_loader b) ds with
    | None => None
    | Some l => Some (MkDFB l (fold_left (file_write_rows bs rpf) (l_writes l) (dfb_detailed b)) (dfb_ranked b))
    end.

  (* models: object_detection/evaluator.py:169-210 finalize on file writers; the
     evaluator reads the files when needed *)
  Definition dfb_finalize (bs rpf : nat) (rebatch : list drow -> list (list drow)) (b : dfb)
      : dfb * fresult ldict :=
    let w := file_flush (dfb_detailed b) in
    if Nat.eqb (file_count_rows (f_dir w)) 0 then (MkDFB (dfb_loader b) w (dfb_ranked b), EmptyCache)
    else
      let w2 := file_sort_by (table_sort_by det_sorting) w in
      let tables := file_tables (f_dir w2) in
      match rank_ops unit KFile bs rpf rebatch tables with
      | None => (MkDFB (dfb_loader b) w2 (dfb_ranked b), SortFailed)
      | Some ops =>
          let ranked := file_flush (fold_left (file_step bs rpf) ops (dfb_ranked b)) in
          (MkDFB (dfb_loader b) w2 ranked, Done (det_extract_labels tables))
      end.
  (* what an evaluator reads from the directories of a builder *)
  Definition dfe (b : dfb) (labels : ldict) : deval :=
    MkDE (file_tables (f_dir (dfb_detailed b))) (file_tables (f_dir (dfb_ranked b))) labels.

  (* a user's sequence of add calls *)
  Fixpoint dmb_adds (bs : nat) (b : dmb) (calls : list (list detection)) : option dmb :=
    match calls with
    | [] => Some b
    | ds :: t => match dmb_add bs b ds with Some b' => dmb_adds bs b' t | None => None end
    end.
  Fixpoint dfb_adds (bs rpf : nat) (b : dfb) (calls : list (list detection)) : option dfb :=
    match calls with
    | [] => Some b
    | ds :: t => match dfb_add bs rpf b ds with Some b' => dfb_adds bs rpf b' t | None => None end
    end.
End Builders.
