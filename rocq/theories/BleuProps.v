(* C111: the weights of BLEU metrics: defaults and lists passed by the user.
   Model: BleuModel.v (sessions), TextModel.v (compute_sentence_bleu). *)
From Verif Require Import Prelude TextModel BleuModel BleuProofs.
From Coq Require Import QArith String.
Local Open Scope string_scope.
Local Open Scope nat_scope.
Local Open Scope list_scope.

(* as long as no weights list of a metric that was computed with default weights is changed
   in place, every call with default weights uses four quarters, whatever happened before *)
Theorem C111_defaults_partial :
  forall n xs s, bsession_run n bs_start xs = Some s ->
  (forall k l, In (EditWeights k l) xs -> exists c i, nth_error (bs_calls s) k = Some c /\ bc_ref c = Own i) ->
  forall c, In c (bs_calls s) -> (bc_ref c = DefaultBleu \/ bc_ref c = DefaultAll) ->
  bc_outcome c = compute_sentence_bleu n (bc_response c) [Fin (1 # 4); Fin (1 # 4); Fin (1 # 4); Fin (1 # 4)].
Proof.
  intros n xs s H N c Hc Hd. assert (L := log_holds n xs _ _ H (Forall_nil _)). assert (D := defaults_hold n xs _ _ H (conj eq_refl eq_refl) (Forall_nil _) N).
  rewrite (proj1 (Forall_forall _ _) L c Hc), (proj1 (Forall_forall _ _) D c Hc); [reflexivity|]. destruct Hd as [->| ->]; exact I.
Qed.
Print Assumptions C111_defaults_partial.
(* otherwise not: changing the weights shown by one metric changes the next default call *)
Definition first_weight : nlp := MkNlp (fun _ _ _ _ => Raised ValueError) (fun _ _ w => match w with x :: _ => Ok x | [] => Raised ValueError end).
Definition asked : query_response := MkQR (lit "q") (lit "a") (Some (MkContext [lit "g"] [lit "p"])).
Theorem C111_defaults_refuted :
  exists n r xs s c c', bsession_run n bs_start xs = Some s /\ xs = [Bleu r None; EditWeights 0 [Fin 1]; Bleu r None] /\
  nth_error (bs_calls s) 0 = Some c /\ nth_error (bs_calls s) 1 = Some c' /\ bc_response c = bc_response c' /\ bc_outcome c <> bc_outcome c'.
Proof.
  exists first_weight, asked. do 4 eexists. split; [|split; [reflexivity|]]; [vm_compute; reflexivity|]. split; [reflexivity|]. split; [reflexivity|]. split; [reflexivity|]. vm_compute. discriminate.
Qed.
Print Assumptions C111_defaults_refuted.
(* the value of a metric is that of the weights at the time of the call *)
Theorem C111_value :
  forall n xs s, bsession_run n bs_start xs = Some s -> forall c, In c (bs_calls s) -> bc_outcome c = compute_sentence_bleu n (bc_response c) (bc_used c).
Proof. intros n xs s H c Hc. exact (proj1 (Forall_forall _ _) (log_holds n xs _ _ H (Forall_nil _)) c Hc). Qed.
Print Assumptions C111_value.
(* and the weights it shows are those, if no list is changed in place *)
Theorem C111_shown_partial :
  forall n xs s, bsession_run n bs_start xs = Some s -> (forall x, In x xs -> match x with EditList _ _ | EditWeights _ _ => False | _ => True end) ->
  forall c, In c (bs_calls s) -> contents_of s (bc_ref c) = Some (bc_used c).
Proof.
  intros n xs s H N c Hc. refine (proj1 (Forall_forall _ _) (used_shown n xs _ _ H (Forall_nil _) _) c Hc). apply forallb_forall. intros x Hx. apply N in Hx. destruct x; try reflexivity; destruct Hx.
Qed.
Print Assumptions C111_shown_partial.
Theorem C111_shown_refuted :
  exists n r xs s c, bsession_run n bs_start xs = Some s /\ xs = [NewList [Fin 1]; Bleu r (Some 0); EditList 0 [Fin (1 # 2); Fin (1 # 2)]] /\
  nth_error (bs_calls s) 0 = Some c /\ contents_of s (bc_ref c) <> Some (bc_used c).
Proof.
  exists first_weight, asked. do 3 eexists. split; [|split; [reflexivity|]]; [vm_compute; reflexivity|]. split; [reflexivity|]. vm_compute. discriminate.
Qed.
Print Assumptions C111_shown_refuted.
(* the list each metric keeps: its argument, or the default list of its function *)
Theorem C111_kept :
  forall n xs s, bsession_run n bs_start xs = Some s -> map bc_ref (bs_calls s) = flat_map list_given xs.
Proof. intros n xs s H. exact (session_kept n xs _ _ H). Qed.
Print Assumptions C111_kept.
(* a change in place reaches the metrics that keep the changed list and no others; other
   steps change no weights *)
Theorem C111_reach :
  forall n xs s x s', bsession_run n bs_start xs = Some s -> bstep_run n s x = Some s' ->
  forall k c, nth_error (bs_calls s) k = Some c ->
  nth_error (bs_calls s') k = Some c /\
  exists l, contents_of s (bc_ref c) = Some l /\
    contents_of s' (bc_ref c) = Some (match written s x with Some (w, l') => if lref_eqb (bc_ref c) w then l' else l | None => l end).
Proof.
  intros n xs s x s' H Hx k c Hc. assert (E : lists_exist s) by (apply (session_exist n xs _ _ H); intros c' []).
  split; [exact (calls_grow n s x s' k c Hx Hc)|].
  destruct (contents_of s (bc_ref c)) as [l|] eqn:F; [|exfalso; exact (E c (nth_error_In _ _ Hc) F)].
  exists l. split; [reflexivity|exact (step_contents n s x s' E Hx _ _ F)].
Qed.
Print Assumptions C111_reach.
(* a session with a copy from to_dict that is then changed *)
Example C111_example :
  exists s, bsession_run first_weight bs_start [Bleu asked None; ToDict 0; EditList 0 []; All asked None; Bleu asked (Some 0)] = Some s /\
  map bc_used (bs_calls s) = [quarters; quarters; []] /\ map bc_ref (bs_calls s) = [DefaultBleu; DefaultAll; Own 0] /\
  exists s', bstep_run first_weight s (EditWeights 1 [Fin 1]) = Some s' /\
    map (fun c => contents_of s' (bc_ref c)) (bs_calls s') = [Some quarters; Some [Fin 1]; Some []].
Proof. eexists. split; [vm_compute; reflexivity|]. split; [reflexivity|]. split; [reflexivity|]. eexists. split; reflexivity. Qed.
