(* numpy's order of adding up, as one instance of the summations of [FReportSpec], and
   inputs for the examples beside C112-C114. *)
From Verif Require Import Prelude Counting CacheModel ClsModel ClsSpec DetModel DetSpec DetFlowModel DetEnd DetDemo FloatModel FReportSpec.
From Coq Require Import Lia String DecimalString QArith Permutation.
Local Notation length := List.length (only parsing).
Local Notation concat := List.concat (only parsing).
Local Open Scope nat_scope.

(* numpy/_core/src/umath/loops_utils.h.src pairwise_sum (not in /repo): up to 7 summands
   from left to right starting at 0, up to 128 in eight running sums, more by halves *)
Definition onto (t : stree) (l : list Q) : stree := fold_left (fun t x => SNode t (SLeaf x)) l t.
Fixpoint lanes (r : list stree) (l : list Q) : list stree * list Q :=
  match l with
  | a0 :: a1 :: a2 :: a3 :: a4 :: a5 :: a6 :: a7 :: rest =>
      match r with
      | [r0; r1; r2; r3; r4; r5; r6; r7] =>
          lanes [SNode r0 (SLeaf a0); SNode r1 (SLeaf a1); SNode r2 (SLeaf a2); SNode r3 (SLeaf a3);
                 SNode r4 (SLeaf a4); SNode r5 (SLeaf a5); SNode r6 (SLeaf a6); SNode r7 (SLeaf a7)] rest
      | _ => (r, l)
      end
  | _ => (r, l)
  end.
Definition join8 (r : list stree) : stree :=
  match r with
  | [r0; r1; r2; r3; r4; r5; r6; r7] => SNode (SNode (SNode r0 r1) (SNode r2 r3)) (SNode (SNode r4 r5) (SNode r6 r7))
  | _ => fold_left SNode r SZero
  end.
Definition block (l : list Q) : stree :=
  match l with
  | a0 :: a1 :: a2 :: a3 :: a4 :: a5 :: a6 :: a7 :: rest =>
      let '(r, rem) := lanes [SLeaf a0; SLeaf a1; SLeaf a2; SLeaf a3; SLeaf a4; SLeaf a5; SLeaf a6; SLeaf a7] rest in onto (join8 r) rem
  | _ => onto SZero l
  end.
Fixpoint pairwise (fuel : nat) (l : list Q) : stree :=
  match fuel with
  | O => block l
  | S fuel => if length l <=? 128 then block l
              else let n := length l / 2 - (length l / 2) mod 8 in SNode (pairwise fuel (firstn n l)) (pairwise fuel (skipn n l))
  end.
Definition np_sum (l : list Q) : Q := tsum (SNode SZero (pairwise (length l) l)).

Lemma onto_leaves : forall l t, leaves (onto t l) = leaves t ++ l.
Proof. induction l as [|x l IH]; intros t; cbn; [rewrite app_nil_r; reflexivity|]. unfold onto in *. rewrite IH. cbn. rewrite <- app_assoc. reflexivity. Qed.
Lemma join8_leaves r : leaves (join8 r) = concat (map leaves r).
Proof.
  assert (G : forall r t, leaves (fold_left SNode r t) = leaves t ++ concat (map leaves r)).
  { clear r. induction r as [|x r IH]; intros t; cbn; [rewrite app_nil_r; reflexivity|]. rewrite IH. cbn. rewrite <- app_assoc. reflexivity. }
  destruct r as [|r0 [|r1 [|r2 [|r3 [|r4 [|r5 [|r6 [|r7 [|x r]]]]]]]]]; try (apply (G _ SZero)). cbn. rewrite !app_nil_r, !app_assoc. reflexivity.
Qed.
Lemma lanes_leaves : forall n l r, length l <= n -> Permutation (concat (map leaves (fst (lanes r l))) ++ snd (lanes r l)) (concat (map leaves r) ++ l).
Proof.
  induction n as [|n IH]; intros l r H.
  { destruct l; [reflexivity|cbn in H; lia]. }
  destruct l as [|a0 [|a1 [|a2 [|a3 [|a4 [|a5 [|a6 [|a7 rest]]]]]]]]; try reflexivity.
  destruct r as [|r0 [|r1 [|r2 [|r3 [|r4 [|r5 [|r6 [|r7 [|x r]]]]]]]]]; try reflexivity. cbn [lanes].
  rewrite IH by (cbn in H; lia). cbn [map concat leaves]. rewrite !app_nil_r, <- !app_assoc. cbn [app].
  repeat (match goal with |- Permutation (?x ++ _) (?x ++ _) => apply Permutation_app_head end).
  change (r0 :: nil) with (r0 :: nil).
  (* move the eight new summands past the running sums *)
  assert (M : forall (x : Q) (u v w : list Q), Permutation v (u ++ w) -> Permutation (x :: v) (u ++ x :: w)) by (intros; apply Permutation_cons_app; assumption).
  assert (A : forall (u v w : list Q), Permutation v w -> Permutation (u ++ v) (u ++ w)) by (intros; apply Permutation_app_head; assumption).
  rewrite (app_assoc (leaves r6)), (app_assoc (leaves r5)), (app_assoc (leaves r4)), (app_assoc (leaves r3)), (app_assoc (leaves r2)), (app_assoc (leaves r1)).
  apply M. rewrite <- !app_assoc. apply A.
  rewrite (app_assoc (leaves r6)), (app_assoc (leaves r5)), (app_assoc (leaves r4)), (app_assoc (leaves r3)), (app_assoc (leaves r2)).
  apply M. rewrite <- !app_assoc. apply A.
  rewrite (app_assoc (leaves r6)), (app_assoc (leaves r5)), (app_assoc (leaves r4)), (app_assoc (leaves r3)).
  apply M. rewrite <- !app_assoc. apply A.
  rewrite (app_assoc (leaves r6)), (app_assoc (leaves r5)), (app_assoc (leaves r4)).
  apply M. rewrite <- !app_assoc. apply A.
  rewrite (app_assoc (leaves r6)), (app_assoc (leaves r5)).
  apply M. rewrite <- !app_assoc. apply A.
  rewrite (app_assoc (leaves r6)).
  apply M. rewrite <- !app_assoc. apply A.
  apply M. apply A. reflexivity.
Qed.
Lemma block_leaves l : Permutation (leaves (block l)) l.
Proof.
  destruct l as [|a0 [|a1 [|a2 [|a3 [|a4 [|a5 [|a6 [|a7 rest]]]]]]]]; try (cbn [block]; rewrite onto_leaves; reflexivity).
  cbn [block]. pose proof (lanes_leaves (length rest) rest [SLeaf a0; SLeaf a1; SLeaf a2; SLeaf a3; SLeaf a4; SLeaf a5; SLeaf a6; SLeaf a7] (le_n _)) as P.
  destruct (lanes _ rest) as [r rem]. cbn [fst snd] in P. rewrite onto_leaves, join8_leaves. exact P.
Qed.
Lemma pairwise_leaves : forall fuel l, Permutation (leaves (pairwise fuel l)) l.
Proof.
  induction fuel as [|fuel IH]; intros l; [apply block_leaves|]. cbn [pairwise]. destruct (length l <=? 128); [apply block_leaves|].
  cbv zeta. cbn [leaves]. rewrite !IH. rewrite firstn_skipn. reflexivity.
Qed.
Lemma np_sum_ok : summation np_sum.
Proof. intros l _. exists (SNode SZero (pairwise (length l) l)). split; [apply pairwise_leaves|reflexivity]. Qed.

(* one of ten cats is found *)
Definition tenth : list detection :=
  [ MkDet "img0" [gt "a" "cat"; gt "b" "cat"; gt "c" "cat"; gt "d" "cat"; gt "e" "cat"; gt "f" "cat"; gt "g" "cat"; gt "h" "cat"; gt "i" "cat"; gt "j" "cat"]
               [pd "x" "cat" 900000000] (iou_of [ov 0 0 800000000]) ]%string%Z.
Definition tenth_mem : deval := Eval vm_compute in get_eval (mem_eval 1 one 4 singles [tenth]).
Lemma tenth_mem_ok : det_evaluator 1 one tenth tenth_mem.
Proof. apply (mem_eval_ok 1 one 4 singles [tenth]). vm_compute. reflexivity. Qed.

(* a cat and dogs, the cat ranked first, the dogs in groups of equal scores *)
Fixpoint ranks (s : Z) (groups : list nat) : list Z :=
  match groups with [] => [] | g :: t => repeat s g ++ ranks (s - 1) t end.
Definition uid (n : nat) : string := NilZero.string_of_uint (Nat.to_uint n).
Definition one_cat (groups : list nat) : list classification :=
  MkCls (uid 0) "cat"%string ["cat"%string] [1000%Z] :: map (fun ns => MkCls (uid (S (fst ns))) "dog"%string ["cat"%string] [snd ns]) (combine (seq 0 (List.length (ranks 900%Z groups))) (ranks 900%Z groups)).
Definition six : list classification := one_cat [2; 3; 1].
Definition many : list classification := one_cat [2; 1; 3; 5; 1; 4; 19].
