(* A json.loads whose strings are Python strings, for the examples. *)
From Verif Require Import Prelude TextModel TextSpec TextDemo PromptSpec.
Local Open Scope Z_scope.
Local Open Scope list_scope.

Definition unicodeb (t : text) : bool := forallb (fun c => (0 <=? c) && (c <? 1114112)) t.
Fixpoint all_unicode (v : json) : bool :=
  match v with
  | JStr t => unicodeb t
  | JArr l => forallb all_unicode l
  | JObj d => forallb (fun e => all_unicode (snd e)) d
  | _ => true
  end.
Lemma unicodeb_spec t : unicodeb t = true <-> unicode t.
Proof.
  unfold unicodeb, unicode. rewrite forallb_forall, Forall_forall. split; intros H c I; specialize (H c I).
  - apply andb_true_iff in H. rewrite Z.leb_le, Z.ltb_lt in H. lia.
  - rewrite andb_true_iff, Z.leb_le, Z.ltb_lt. lia.
Qed.
Lemma all_unicode_spec v t : has_string v t -> all_unicode v = true -> unicode t.
Proof.
  induction 1 as [t|l v t I H IH|d k v t I H IH]; intros A; cbn in A.
  - apply unicodeb_spec, A.
  - rewrite forallb_forall in A. apply IH, A, I.
  - rewrite forallb_forall in A. apply IH. apply (A (k, v)), I.
Qed.
Definition unicode_loads (t : text) : loaded :=
  match demo_loads t with Loaded d => if all_unicode (JObj d) then Loaded d else DecodeError | x => x end.
Definition unicode_py : python := MkPy unicode_loads ascii_digit 4300 (fun l => l).
Lemma unicode_py_ok : python_ok unicode_py.
Proof. destruct demo_py_ok as [A B C]. constructor; assumption. Qed.
Lemma unicode_py_loads : loads_unicode unicode_py.
Proof.
  intros s d E k v t I H. cbn in E. unfold unicode_loads in E. destruct (demo_loads s) as [d'| |]; try discriminate.
  destruct (all_unicode (JObj d')) eqn:A; [|discriminate]. injection E as ->. apply (all_unicode_spec (JObj d) t); [|exact A]. apply (hs_obj d k v t I H).
Qed.
