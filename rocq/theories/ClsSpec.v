(* Vocabulary for the classification properties: everything is defined on the
   user's input (a list of classifications) without reference to stored rows. *)
From Verif Require Import Prelude CacheSpec ClsModel.
From Coq Require Import String QArith.
Local Open Scope nat_scope.
Local Open Scope list_scope.

(* the candidates of a datum *)
Definition candidates (c : classification) : list (string * Z) :=
  combine (c_predictions c) (c_scores c).

(* an input accepted by the API: at least one candidate, one score per candidate *)
Definition accepted (c : classification) : Prop :=
  c_predictions c <> [] /\ List.length (c_predictions c) = List.length (c_scores c).

(* every candidate label at most once *)
Definition distinct_candidates (c : classification) : Prop := NoDup (c_predictions c).
(* the ground truth is one of the candidates *)
Definition covered (c : classification) : Prop := In (c_groundtruth c) (c_predictions c).

(* the first candidate with the highest score *)
Definition is_top (c : classification) (p : string * Z) : Prop :=
  exists pre post, candidates c = pre ++ p :: post
    /\ (forall x, In x pre -> (snd x < snd p)%Z)
    /\ (forall x, In x post -> (snd x <= snd p)%Z).

Fixpoint top_from (best : string * Z) (l : list (string * Z)) : string * Z :=
  match l with
  | [] => best
  | x :: t => top_from (if (snd best <? snd x)%Z then x else best) t
  end.
Definition top (c : classification) : option (string * Z) :=
  match candidates c with [] => None | x :: t => Some (top_from x t) end.

(* the label predicted for a datum at score threshold [thr]: the top candidate if
   its score reaches the threshold and is not (numerically) zero *)
Definition decides (nonzero : Z -> bool) (thr : Z) (c : classification) : option string :=
  match top c with
  | Some (l, s) => if (thr <=? s)%Z && nonzero s then Some l else None
  | None => None
  end.

Definition opt_is (o : option string) (l : string) : bool :=
  match o with Some x => String.eqb x l | None => false end.

(* the four outcomes of a datum for label [l] given the predicted label *)
Definition outcome_tp (pred : classification -> option string) l c :=
  String.eqb (c_groundtruth c) l && opt_is (pred c) l.
Definition outcome_fp (pred : classification -> option string) l c :=
  negb (String.eqb (c_groundtruth c) l) && opt_is (pred c) l.
Definition outcome_fn (pred : classification -> option string) l c :=
  String.eqb (c_groundtruth c) l && negb (opt_is (pred c) l).
Definition outcome_tn (pred : classification -> option string) l c :=
  negb (String.eqb (c_groundtruth c) l) && negb (opt_is (pred c) l).

Definition smem (l : string) (ls : list string) : bool := existsb (String.eqb l) ls.

(* all labels of the input, in order of first appearance (ground truth before the
   candidates of the same datum) *)
Fixpoint first_appearance (seen : list string) (l : list string) : list string :=
  match l with
  | [] => seen
  | x :: t => first_appearance (if smem x seen then seen else seen ++ [x]) t
  end.
Definition labels_of (cs : list classification) : list string :=
  first_appearance [] (List.concat (map (fun c => c_groundtruth c :: c_predictions c) cs)).

(* fewer than 10^5 + 1 labels: beyond that np.isclose identifies different ids *)
Definition few_labels (cs : list classification) : Prop :=
  (Z.of_nat (List.length (labels_of cs)) <= 100000)%Z.

(* [tables] is a storage of the rows written for the input [cs]: all its rows, in
   any order, cut into tables in any way that keeps each datum in one table *)
Definition stored (cs : list classification) (tables : list (list crow)) : Prop :=
  Permutation (List.concat tables) (List.concat (ld_writes (fst (add_data loader_init cs))))
  /\ aligned r_datum tables.

(* the filter expression [datums] selects whole datums, namely those with [sel] *)
Definition selects (cs : list classification) (tables : list (list crow))
    (datums : crow -> bool) (sel : classification -> bool) : Prop :=
  forall r d c, In r (List.concat tables) -> r_datum r = Z.of_nat d -> nth_error cs d = Some c ->
    datums r = sel c.

(* the labels predicted for a datum when scores accepted by [pass] count: with
   hardmax only the top candidate, otherwise every candidate *)
Definition positives (hardmax : bool) (pass : Z -> bool) (c : classification) : list string :=
  if hardmax then match top c with Some (l, s) => if pass s then [l] else [] | None => [] end
  else map fst (filter (fun p => pass (snd p)) (candidates c)).

(* scores accepted by compute_precision_recall at threshold [thr] *)
Definition pass_counts (tol thr s : Z) : bool := (thr <=? s)%Z && (tol <? Z.abs s)%Z.
(* scores accepted by compute_confusion_matrix when all of [thrs] apply *)
Definition pass_cm (tol9 : Z) (thrs : list Z) (s : Z) : bool :=
  (tol9 <? s)%Z && forallb (fun thr => (thr <=? s)%Z) thrs.

(* for label [l]: the score given to [l] by every datum that has it among its
   candidates, and whether [l] is the datum's ground truth *)
Definition outcomes (l : string) (cs : list classification) : list (Z * bool) :=
  List.concat (map (fun c => map (fun p => (snd p, String.eqb (c_groundtruth c) l))
                          (filter (fun p => String.eqb (fst p) l) (candidates c))) cs).

(* twice the Mann-Whitney statistic: 2 for a positive scored above a negative, 1
   for a tie *)
Definition pair_score (p n : Z) : Z := if (n <? p)%Z then 2 else if (n =? p)%Z then 1 else 0.
Definition zsum (l : list Z) : Z := fold_right Z.add 0%Z l.
Definition pos_of (o : list (Z * bool)) : list Z := map fst (filter snd o).
Definition neg_of (o : list (Z * bool)) : list Z := map fst (filter (fun x => negb (snd x)) o).
Definition twice_mann_whitney (o : list (Z * bool)) : Z :=
  zsum (map (fun p => zsum (map (pair_score p) (neg_of o))) (pos_of o)).

(* the highest score given to the label is not zero *)
Definition top_nonzero (o : list (Z * bool)) : Prop :=
  (exists x, In x o /\ (0 < fst x)%Z) \/ (forall x, In x o -> (fst x < 0)%Z).

(* add_data stops with an error at the first datum without candidates; the datums
   in front of it stay added *)
Fixpoint accepted_prefix (cs : list classification) : list classification :=
  match cs with
  | [] => []
  | c :: t => match c_predictions c with [] => [] | _ :: _ => c :: accepted_prefix t end
  end.
(* the data added by a sequence of add_data calls *)
Definition added (calls : list (list classification)) : list classification :=
  List.concat (map accepted_prefix calls).
(* one score per candidate, enforced when the input object is constructed *)
Definition wellformed (c : classification) : Prop :=
  List.length (c_predictions c) = List.length (c_scores c).

(* a false negative is only recorded when the ground truth is a candidate or
   another label was predicted *)
Definition noticed (pred : classification -> option string) (c : classification) : bool :=
  smem (c_groundtruth c) (c_predictions c) || match pred c with Some _ => true | None => false end.

(* a label other than [l] is among the predicted ones *)
Definition other_positive (pass : Z -> bool) (l : string) (c : classification) : bool :=
  existsb (fun x => negb (String.eqb x l)) (positives false pass c).

(* the datum is classified correctly *)
Definition correct (nonzero : Z -> bool) (thr : Z) (c : classification) : bool :=
  opt_is (decides nonzero thr c) (c_groundtruth c).

(* the score given to label [l] *)
Definition score_of (l : string) (c : classification) : option Z :=
  option_map snd (find (fun p => String.eqb (fst p) l) (candidates c)).

(* the label with a given id *)
Definition label_at (cs : list classification) (z : Z) : option string :=
  if (z <? 0)%Z then None else nth_error (labels_of cs) (Z.to_nat z).

(* the example lists of a datum, given the labels predicted for it: the ground
   truth is the true positive or the false negative, all other predicted labels are
   false positives, each listed once *)
Definition example_meaning (cs : list classification) (pos : list string) (c : classification) (ex : datum_example) : Prop :=
  map (label_at cs) (ex_tp ex) = (if smem (c_groundtruth c) pos then [Some (c_groundtruth c)] else [])
  /\ map (label_at cs) (ex_fn ex) = (if smem (c_groundtruth c) pos then [] else [Some (c_groundtruth c)])
  /\ NoDup (map (label_at cs) (ex_fp ex))
  /\ (forall o, In o (map (label_at cs) (ex_fp ex)) <-> exists p, o = Some p /\ In p pos /\ p <> c_groundtruth c).
