(* C128: what the warning about overlapping masks says.
   Vocabulary: SegSpec.v, SegWarnSpec.v.  Model: SegWarnModel.v. *)
From Verif Require Import Prelude Counting CacheModel CacheSpec ClsModel ClsSpec FlowModel DetFlowModel SegModel SegSpec SegPixelProofs SegValidProofs SegProps
  SegWarnModel SegWarnSpec SegWarnProofs SegWarnMain.
From Coq Require Import QArith String.
Local Notation length := List.length (only parsing).
Local Open Scope nat_scope.
Local Open Scope list_scope.

(* ---------------------------------------------------------------- C128 *)
(* full claim: the warning given while a Segmentation is constructed counts the pixels that
   lie in two masks.  Proved: it is given exactly if some pixel does, every pixel counted
   does, and every pixel counted was taken out of some mask; refuted otherwise *)

(* the object is the one of the other properties *)
Theorem C128_object : forall uid gts pds shape m,
  fst (construct uid gts pds shape m) = make_segmentation uid gts pds shape m.
Proof. exact construct_make. Qed.
Print Assumptions C128_object.

(* no warning for the ground truths (predictions): exactly if they are disjoint, and
   exactly if they are left as they are *)
Theorem C128_silent :
  forall uid gts pds shape m s ws, Forall array_ok gts -> Forall array_ok pds -> construct uid gts pds shape m = (Some s, ws) ->
  forall key inp out, (key = "ground truth"%string /\ inp = gts /\ out = sg_gts s) \/ (key = "prediction"%string /\ inp = pds /\ out = sg_pds s) ->
  (about key ws = [] <-> disjoint_masks inp) /\ (about key ws = [] <-> out = inp).
Proof. exact c_silent. Qed.
Print Assumptions C128_silent.

(* the numbers in the warning: the pixels taken out of some mask, and all pixels *)
Theorem C128_count :
  forall uid gts pds shape m s ws, Forall array_ok gts -> Forall array_ok pds -> construct uid gts pds shape m = (Some s, ws) ->
  forall key inp out, (key = "ground truth"%string /\ inp = gts /\ out = sg_gts s) \/ (key = "prediction"%string /\ inp = pds /\ out = sg_pds s) ->
  let n := countb (taken inp out) (pixels s) in
  about key ws = if 0 <? n then [MkWarn key uid (Z.of_nat n) (sg_size s)] else [].
Proof. exact c_count. Qed.
Print Assumptions C128_count.

Theorem C128_shared_partial :
  forall uid gts pds shape m s ws, Forall array_ok gts -> Forall array_ok pds -> construct uid gts pds shape m = (Some s, ws) ->
  forall key inp out, (key = "ground truth"%string /\ inp = gts /\ out = sg_gts s) \/ (key = "prediction"%string /\ inp = pds /\ out = sg_pds s) ->
  (forall p, taken inp out p = true -> in_two inp p) /\
  (forall i j a b p, i < j -> nth_error inp i = Some a -> nth_error inp j = Some b -> px a p = true -> px b p = true ->
     (forall k c q, k < i -> nth_error inp k = Some c -> px c q = true -> px a q = false) -> taken inp out p = true).
Proof.
  intros uid gts pds shape m s ws Hg Hp H key inp out Hio.
  split; [exact (c_shared uid gts pds shape m s ws Hg Hp H key inp out Hio)|exact (c_kept uid gts pds shape m s ws Hg Hp H key inp out Hio)].
Qed.
Print Assumptions C128_shared_partial.

(* nothing but the warnings for the two kinds of annotations *)
Theorem C128_no_others :
  forall uid gts pds shape m, let ws := snd (construct uid gts pds shape m) in
  ws = about "ground truth" ws ++ about "prediction" ws.
Proof. exact construct_about. Qed.
Print Assumptions C128_no_others.

Example C128_example :
  let a := MkBM "a" [1; 4]%Z [true; true; false; false] [] in
  let b := MkBM "b" [1; 4]%Z [true; true; true; false] [] in
  let c := MkBM "c" [1; 4]%Z [false; true; false; true] [] in
  Forall array_ok [a; b; c] /\
  snd (construct "x" [a; b; c] [c] [1; 4]%Z []) = [MkWarn "ground truth" "x" 2 4] /\
  snd (construct "x" [c] [b; c] [1; 4]%Z []) = [MkWarn "prediction" "x" 1 4] /\
  snd (construct "x" [a; b] [MkBM "d" [4; 1]%Z [true; true; true; true] []] [1; 4]%Z []) = [MkWarn "ground truth" "x" 2 4].
Proof. split; [repeat constructor; discriminate|]. split; [reflexivity|]. split; reflexivity. Qed.

(* three masks: pixel 1 lies in the second and third mask and is not counted (it also
   stays in both) *)
Theorem C128_shared_refuted :
  exists uid gts s ws, Forall array_ok gts /\ construct uid gts [] [1; 2]%Z [] = (Some s, ws) /\
    ws = [MkWarn "ground truth" uid 1 2] /\ in_two gts 0 /\ in_two gts 1 /\ taken gts (sg_gts s) 1 = false.
Proof.
  exists "x"%string, chain. eexists. eexists. split; [repeat constructor; discriminate|]. split; [vm_compute; reflexivity|].
  split; [reflexivity|]. split; [exists 0, 1; do 2 eexists; repeat split; vm_compute; (lia || reflexivity)|].
  split; [exists 1, 2; do 2 eexists; repeat split; vm_compute; (lia || reflexivity)|reflexivity].
Qed.
Print Assumptions C128_shared_refuted.
