(* Concrete inputs used by the examples beside the detection theorems.  Scores and
   IoUs are in units of 10^-9, so that 1.0 is 10^9 and the tolerance 1e-9 is 1. *)
From Verif Require Import Prelude Counting CacheModel CacheSpec ClsModel FlowModel
  DetModel DetSpec DetFlowModel DetOrderProofs DetExModel DetExampleProofs DetReportModel DetEnd.
From Coq Require Import String Lia QArith.
Local Open Scope nat_scope.
Local Open Scope list_scope.

Definition one : Z := 1000000000%Z.
Definition gt (u l : string) : annotation := MkAnn u [l] [].
Definition pd (u l : string) (s : Z) : annotation := MkAnn u [l] [s].
Definition ov (p g : nat) (i : Z) : nat * nat * Z := (p, g, i).
Definition iou_of (l : list (nat * nat * Z)) (p g : nat) : Z :=
  match find (fun x => Nat.eqb (fst (fst x)) p && Nat.eqb (snd (fst x)) g) l with Some x => snd x | None => 0%Z end.

(* three images: two predictions compete for a cat, a dog is predicted elsewhere, a
   cat is missed, a cat is predicted where there is nothing *)
Definition ddemo : list detection :=
  [ MkDet "img0" [gt "a" "cat"; gt "b" "dog"]
               [pd "x" "cat" 900000000; pd "y" "cat" 700000000; pd "z" "dog" 800000000]
               (iou_of [ov 0 0 800000000; ov 1 0 600000000; ov 1 1 300000000]);
    MkDet "img1" [gt "c" "cat"] [] (iou_of []);
    MkDet "img2" [] [pd "w" "cat" 300000000] (iou_of []) ]%string%Z.
(* a prediction with two labels *)
Definition multi : list detection :=
  [ MkDet "img0" [gt "a" "cat"] [MkAnn "x" ["cat"; "dog"] [900000000; 800000000]%Z] (iou_of [ov 0 0 900000000]);
    MkDet "img1" [gt "b" "dog"] [] (iou_of []) ]%string%Z.
(* a better-scored prediction with little overlap competes with a good one *)
Definition steal : list detection :=
  [ MkDet "img0" [gt "a" "cat"] [pd "x" "cat" 900000000; pd "y" "cat" 800000000]
        (iou_of [ov 0 0 200000000; ov 1 0 900000000]) ]%string%Z.

Definition mem_eval (eps unit : Z) (bs : nat) (rb : list drow -> list (list drow)) (calls : list (list detection)) : option deval :=
  match dmb_adds eps bs dmb_init calls with
  | Some b => match snd (dmb_finalize unit bs rb b) with Done e => Some e | _ => None end
  | None => None
  end.
Definition file_eval (eps unit : Z) (bs rpf : nat) (rb : list drow -> list (list drow)) (calls : list (list detection)) : option deval :=
  match dfb_adds eps bs rpf dfb_init calls with
  | Some b => match dfb_finalize unit bs rpf rb b with (b', Done labels) => Some (dfe b' labels) | _ => None end
  | None => None
  end.
Lemma mem_eval_ok eps unit bs rb calls e : mem_eval eps unit bs rb calls = Some e -> det_evaluator eps unit (List.concat calls) e.
Proof.
  unfold mem_eval. destruct (dmb_adds eps bs dmb_init calls) as [b|] eqn:Eb; [|discriminate].
  destruct (dmb_finalize unit bs rb b) as (b', r) eqn:Ef. cbn. destruct r as [e'| | |]; try discriminate. intros E. injection E as <-.
  left. exists bs, rb, calls. split; [reflexivity|]. exists b, b'. auto.
Qed.
Lemma file_eval_ok eps unit bs rpf rb calls e : batching_ok rb -> file_eval eps unit bs rpf rb calls = Some e -> det_evaluator eps unit (List.concat calls) e.
Proof.
  intros Hrb. unfold file_eval. destruct (dfb_adds eps bs rpf dfb_init calls) as [b|] eqn:Eb; [|discriminate].
  destruct (dfb_finalize unit bs rpf rb b) as (b', r) eqn:Ef. cbn. destruct r as [labels| | |]; try discriminate. intros E. injection E as <-.
  right. exists bs, rpf, rb, calls. split; [exact Hrb|]. split; [reflexivity|]. exists b, b', labels. auto.
Qed.
Definition singles (l : list drow) : list (list drow) := map (fun x => [x]) l.
Lemma singles_ok : batching_ok singles.
Proof. intros l. unfold singles. induction l as [|a l [A B]]; cbn; split; auto; [f_equal; exact A|constructor; [discriminate|exact B]]. Qed.

Definition no_eval : deval := MkDE [] [] [].
Definition get_eval (o : option deval) : deval := match o with Some e => e | None => no_eval end.
(* the same data in memory and in files of one row, added in one or two calls *)
Definition ddemo_mem : deval := Eval vm_compute in get_eval (mem_eval 1 one 4 singles [ddemo]).
Definition ddemo_file : deval := Eval vm_compute in get_eval (file_eval 1 one 2 1 singles [firstn 1 ddemo; skipn 1 ddemo]).
Definition multi_mem : deval := Eval vm_compute in get_eval (mem_eval 1 one 4 singles [multi]).
Definition steal_mem : deval := Eval vm_compute in get_eval (mem_eval 1 one 4 singles [steal]).

Lemma ddemo_mem_ok : det_evaluator 1 one ddemo ddemo_mem.
Proof. apply (mem_eval_ok 1 one 4 singles [ddemo]). vm_compute. reflexivity. Qed.
Lemma ddemo_file_ok : det_evaluator 1 one ddemo ddemo_file.
Proof. apply (file_eval_ok 1 one 2 1 singles [firstn 1 ddemo; skipn 1 ddemo] _ singles_ok). vm_compute. reflexivity. Qed.
Lemma multi_mem_ok : det_evaluator 1 one multi multi_mem.
Proof. apply (mem_eval_ok 1 one 4 singles [multi]). vm_compute. reflexivity. Qed.
Lemma steal_mem_ok : det_evaluator 1 one steal steal_mem.
Proof. apply (mem_eval_ok 1 one 4 singles [steal]). vm_compute. reflexivity. Qed.

Ltac each := repeat (apply Forall_cons || apply Forall_nil).
Lemma iou_of_range l unit : (0 <= unit)%Z -> Forall (fun x => 0 <= snd x <= unit)%Z l -> forall p g, (0 <= iou_of l p g <= unit)%Z.
Proof.
  intros Hu Hl p g. unfold iou_of. destruct (find _ l) as [x|] eqn:E; [|lia]. apply List.find_some in E. destruct E as [E _].
  apply (proj1 (Forall_forall _ _) Hl x E).
Qed.
Ltac inputs := each; (split; [reflexivity|split; [intros x Hx; cbn in Hx; intuition (subst; reflexivity)|
  intros p g; cbn [t_iou]; apply iou_of_range; [discriminate|each; cbn; split; discriminate]]]).
Lemma ddemo_input : det_input one ddemo.
Proof. unfold det_input, ddemo. inputs. Qed.
Lemma multi_input : det_input one multi.
Proof. unfold det_input, multi. inputs. Qed.
Lemma steal_input : det_input one steal.
Proof. unfold det_input, steal. inputs. Qed.
Lemma ddemo_few : few_det_labels ddemo.
Proof. unfold few_det_labels, few. vm_compute. discriminate. Qed.
Lemma multi_few : few_det_labels multi.
Proof. unfold few_det_labels, few. vm_compute. discriminate. Qed.
Lemma steal_few : few_det_labels steal.
Proof. unfold few_det_labels, few. vm_compute. discriminate. Qed.
Lemma ddemo_ann : few_annotations ddemo.
Proof. repeat split. Qed.
Lemma multi_ann : few_annotations multi.
Proof. repeat split. Qed.
Lemma ddemo_distinct : Forall distinct_pd_labels ddemo.
Proof. unfold ddemo, distinct_pd_labels. each; intros a Ha; cbn in Ha; intuition subst; repeat constructor; cbn; intuition discriminate. Qed.
Lemma multi_distinct : Forall distinct_pd_labels multi.
Proof. unfold multi, distinct_pd_labels. each; intros a Ha; cbn in Ha; intuition subst; repeat constructor; cbn; intuition discriminate. Qed.
Lemma ddemo_single : Forall single_pd_labels ddemo.
Proof. unfold ddemo, single_pd_labels. each; intros a Ha; cbn in Ha; intuition subst; reflexivity. Qed.
Lemma ddemo_no_ties : Forall (no_ties 1) ddemo.
Proof.
  unfold ddemo, no_ties. each; intros p g g' ga ga' l Hg Hg' Hl Hl' Hi E; cbn [t_gts] in Hg, Hg'.
  - destruct g as [|[|g]]; [| |destruct g; discriminate]; (destruct g' as [|[|g']]; [| |destruct g'; discriminate]); auto;
    cbn in Hg, Hg'; injection Hg as <-; injection Hg' as <-; cbn in Hl, Hl'; exfalso;
    destruct (String.eqb_spec l "cat"), (String.eqb_spec l "dog"); subst; cbn in *; discriminate.
  - destruct g as [|g]; [|destruct g; discriminate]; destruct g' as [|g']; [|destruct g'; discriminate]. reflexivity.
  - destruct g; discriminate.
Qed.
Lemma ddemo_rows : Exists has_rows ddemo.
Proof. apply Exists_cons_hd. left. discriminate. Qed.
(* selection of the first image by its uid *)
Definition first_image (d : detection) : bool := String.eqb (t_uid d) "img0".
Definition first_rows (r : drow) : bool := String.eqb (d_uid r) "img0".
Lemma first_selects : det_selects ddemo first_rows first_image.
Proof. intros r i d _ Eu _. unfold first_rows, first_image. rewrite Eu. reflexivity. Qed.
Lemma all_selects ds : det_selects ds (fun _ => true) (fun _ => true).
Proof. intros r i d _ _ _. reflexivity. Qed.
Lemma cat_no : label_no ddemo_mem "cat" 0.
Proof. reflexivity. Qed.
Lemma dog_no : label_no ddemo_mem "dog" 1.
Proof. reflexivity. Qed.
Lemma one_nonneg : (0 <= one)%Z.
Proof. discriminate. Qed.
