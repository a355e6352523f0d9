(* Model of compute_examples of the classification evaluator: the datums of one page with
   the labels listed for them.  Definitions only. *)
From Verif Require Import Prelude CacheModel Counting ClsModel RocModel FlowModel ClsFilterModel.
From Coq Require Import String.
Local Open Scope nat_scope.
Local Open Scope list_scope.

(* models: classification/metric.py:365-437 Metric.examples: datum, threshold and the
   three label lists; [None] in place of a name marks a failed dictionary lookup *)
Record named_example : Type := MkNamed {
  nx_uid : option string; nx_thr : Z;
  nx_tp : list (option string); nx_fn : list (option string); nx_fp : list (option string) }.

(* Python's [x in l] on labels *)
Definition name_eqb (a b : option string) : bool :=
  match a, b with Some x, Some y => String.eqb x y | None, None => true | _, _ => false end.
Definition name_in (x : option string) (l : list (option string)) : bool := existsb (name_eqb x) l.

(* models: classification/utilities.py:149-194, the body of unpack_examples for one datum
   and one threshold; [m] is the score mask of the threshold *)
Definition named_examples (labels : dict) (m : crow -> bool) (rows : list crow) (d : Z) (thr : Z) : named_example :=
  let lab := dict_get labels in
  let mine r := (r_datum r =? d)%Z in
  let tp := map (fun k => lab (snd (fst k)))
              (isort zzz_leb (dkeys zzz_dec key3 (fun r => pc_tp m r && mine r) rows)) in
  let fp := filter (fun x => negb (name_in x tp)) (map (fun k => lab (snd k))
              (isort zz_leb (dkeys zz_dec (fun r => (r_datum r, r_pd r)) (fun r => pc_misclf m r && mine r) rows))) in
  let fn := filter (fun x => negb (name_in x tp)) (map (fun k => lab (snd k))
              (isort zz_leb (dkeys zz_dec key2 (fun r => (pc_misclf m r || pc_unmatched m rows r) && mine r) rows))) in
  MkNamed (uid_of rows d) thr tp fn fp.

(* models: classification/evaluator.py:729-787 compute_examples; [None] is the ValueError
   for an empty list of thresholds *)
Definition cls_examples (tol9 : Z) (hardmax : bool) (thrs : list Z) (datums : crow -> bool)
    (limit : option nat) (offset : nat) (e : ceval) : option (list named_example) :=
  match thrs with
  | [] => None
  | _ :: _ => Some (List.concat (map (fun t =>
      List.concat (map (fun d =>
        map (fun mt => named_examples (ce_labels e) (fst mt) t d (snd mt))
          (combine (masks tol9 hardmax thrs) thrs)) (unique_ids r_datum t)))
      (paginate_index r_datum datums limit offset (ce_tables e))))
  end.
