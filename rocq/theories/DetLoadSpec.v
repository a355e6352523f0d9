(* Specification vocabulary for a filtered object detection cache that is loaded without
   its labels. *)
From Verif Require Import Prelude ClsModel DetModel DetFlowModel DetEnd DetFilterSpec.
From Coq Require String.
Local Open Scope nat_scope.
Local Open Scope list_scope.

(* SPEC: an annotation of the view carries label [v] *)
Definition label_left (ds : list detection) (w : dview) (v : String.string) : Prop :=
  exists d, In d ds /\
    ((exists g ga, nth_error (t_gts d) g = Some ga /\ In v (a_labels ga) /\ v_gt w d g = true) \/
     (exists p pa, nth_error (t_pds d) p = Some pa /\ In v (a_labels pa) /\ v_pd w d p v = true)).
(* SPEC: the labels that are left are the [k] labels with the lowest numbers *)
Definition lowest_left (e : deval) (ds : list detection) (w : dview) (k : nat) : Prop :=
  forall v vi, label_no e v vi -> (label_left ds w v <-> vi < k).
