(* Specification vocabulary: the matching of the predictions of an image with its ground
   truths, and the lists reported for an image, on the user's input. *)
From Verif Require Import Prelude Counting CacheModel ClsModel DetModel DetSpec.
From Coq Require Import String.
Local Open Scope nat_scope.
Local Open Scope list_scope.

Definition best_score (d : detection) (p : nat) : Z :=
  match nth_error (t_pds d) p with Some a => top_score a | None => 0%Z end.
Definition is_scored (d : detection) (p : nat) : bool :=
  match nth_error (t_pds d) p with Some a => negb (Nat.eqb (List.length (a_scores a)) 0) | None => false end.

(* SPEC: the pairs (prediction, ground truth) that may be matched: those that overlap *)
Definition candidates (eps : Z) (d : detection) : list (nat * nat) :=
  filter (fun x => is_scored d (fst x) && (eps <=? t_iou d (fst x) (snd x))%Z)
    (list_prod (seq 0 (List.length (t_pds d))) (seq 0 (List.length (t_gts d)))).
(* SPEC: their order: best score first, then best overlap, then by position of the ground
   truth and of the prediction *)
Definition turn (d : detection) (x : nat * nat) : list Z :=
  [(- best_score d (fst x))%Z; (- t_iou d (fst x) (snd x))%Z; Z.of_nat (snd x); Z.of_nat (fst x)].
Definition turn_leb (d : detection) (x y : nat * nat) : bool := lex_leb (turn d x) (turn d y).
(* SPEC: pairs are taken in this order unless one of the two is already taken *)
Definition clash (x y : nat * nat) : bool := Nat.eqb (fst x) (fst y) || Nat.eqb (snd x) (snd y).
Definition take (taken : list (nat * nat)) (x : nat * nat) : list (nat * nat) :=
  if existsb (clash x) taken then taken else taken ++ [x].
Definition matched_pairs (eps : Z) (d : detection) : list (nat * nat) :=
  fold_left take (isort (turn_leb d) (candidates eps d)) [].
Definition matching (eps : Z) (d : detection) (p g : nat) : bool :=
  existsb (fun x => Nat.eqb (fst x) p && Nat.eqb (snd x) g) (matched_pairs eps d).

(* SPEC: the same as a property: a one-to-one set of overlapping pairs; an overlapping pair
   is left out only for one that comes before it *)
Record in_turn (eps : Z) (d : detection) (M : nat -> nat -> bool) : Prop := {
  it_pairs : forall p g, M p g = true -> In (p, g) (candidates eps d);
  it_one_gt : forall p g g', M p g = true -> M p g' = true -> g = g';
  it_one_pd : forall p p' g, M p g = true -> M p' g = true -> p = p';
  it_taken : forall p g, In (p, g) (candidates eps d) ->
    M p g = true \/ exists p' g', M p' g' = true /\ (p' = p \/ g' = g) /\ turn_leb d (p', g') (p, g) = true /\ (p', g') <> (p, g)
}.

(* ------------------------------------------------------------------ *)
(** * What is reported for an image *)

Definition scored_labels (a : annotation) : list (string * Z) := combine (a_labels a) (a_scores a).

Section Reported.
  Variables (eps t s : Z) (d : detection).
  Local Notation M := (matching eps d).
  Local Notation gts := (numbered (t_gts d)).
  Local Notation pds := (numbered (t_pds d)).
  Definition passes (sc : Z) : bool := (eps <? sc)%Z && (s <=? sc)%Z.

  (* SPEC: ground truth [ga] is matched with prediction [pa], which reaches the thresholds
     with a label that satisfies [ok] *)
  Definition matched_by (ok : string -> bool) (ga pa : nat * annotation) : bool :=
    M (fst pa) (fst ga)
    && existsb (fun ls => ok (fst ls) && reaches eps t s d (fst pa) (fst ga) (snd ls)) (scored_labels (snd pa)).
  Definition any_label (_ : string) : bool := true.
  Definition gt_matched (ga : nat * annotation) : bool := existsb (matched_by any_label ga) pds.
  Definition pd_matched (pa : nat * annotation) : bool := existsb (fun ga => matched_by any_label ga pa) gts.

  (* SPEC: the cell (gl, pl) of the confusion matrix; the ground truths / predictions that
     are matched with nothing *)
  Definition cell_pairs (gl pl : string) : list (annotation * annotation) :=
    flat_map (fun ga => flat_map (fun pa =>
      if has_label gl (snd ga) && matched_by (String.eqb pl) ga pa then [(snd ga, snd pa)] else []) pds) gts.
  Definition lone_gts (gl : string) : list annotation :=
    map snd (filter (fun ga => has_label gl (snd ga) && negb (gt_matched ga)) gts).
  Definition lone_pds (pl : string) : list annotation :=
    map snd (filter (fun pa => existsb (fun ls => String.eqb pl (fst ls) && passes (snd ls)) (scored_labels (snd pa))
                               && negb (pd_matched pa)) pds).

  (* SPEC: the example of the image.  True positives: pairs matched with the same label;
     false positives: a prediction once for every label that reaches the thresholds and
     is matched with another label or, if the prediction has no match, with nothing;
     false negatives: ground truths matched with another label or with nothing *)
  Definition right_pairs : list (annotation * annotation) :=
    flat_map (fun ga => flat_map (fun pa =>
      if matched_by (fun l => has_label l (snd ga)) ga pa then [(snd ga, snd pa)] else []) pds) gts.
  Definition wrong_label (pa : nat * annotation) (ls : string * Z) : bool :=
    existsb (fun ga => negb (has_label (fst ls) (snd ga)) && M (fst pa) (fst ga) && reaches eps t s d (fst pa) (fst ga) (snd ls)) gts
    || (passes (snd ls) && negb (pd_matched pa)).
  Definition wrong_pds : list annotation :=
    flat_map (fun pa => map (fun _ => snd pa) (filter (wrong_label pa) (scored_labels (snd pa)))) pds.
  Definition missed_gts : list annotation :=
    map snd (filter (fun ga => existsb (matched_by (fun l => negb (has_label l (snd ga))) ga) pds || negb (gt_matched ga)) gts).
End Reported.

(* the image has something to report *)
Definition shown_image (d : detection) : bool :=
  negb (Nat.eqb (List.length (t_gts d)) 0) || existsb (fun a => negb (Nat.eqb (List.length (scored_labels a)) 0)) (t_pds d).
