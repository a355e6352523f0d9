(* Ranges of the float scores and documents of the metrics (C115, C116). *)
From Verif Require Import Prelude FloatModel FReportSpec TextModel TextSpec TextMoreProofs FTextModel FTextSpec FTextMain.
From Coq Require Import Lia String QArith Qabs Qround Lqa.
Local Open Scope Z_scope.
Local Open Scope list_scope.

Lemma reported_range new r ty q v : ty <> SummaryCoherence -> contexts_of r <= 65536 -> reported_score new r ty q v -> (0 <= v <= 1)%Q.
Proof.
  intros Ht HN H. destruct ty; cbn [reported_score] in H; try (destruct H as (_ & H & _); exact H); try (destruct H as (H & _); exact H).
  - destruct (H HN) as (H' & _). exact H'.
  - congruence.
Qed.
Lemma forall2_in_r {A B} (R : A -> B -> Prop) l l' : Forall2 R l l' -> forall y, In y l' -> exists x, In x l /\ R x y.
Proof. induction 1 as [|a b l l' H _ IH]; intros y Hy; [destruct Hy|]. destruct Hy as [<-|Hy]; [exists a; split; [left; reflexivity|exact H]|]. destruct (IH y Hy) as (x & Hx & Hr). exists x. split; [right; exact Hx|exact Hr]. Qed.

Lemma float_safe {St} py new (ev : evaluator St) r ty m c model s : python_ok py -> In (ty, m) (fguided_methods py new ev r) ->
  ev_client ev = Some (c, Some model) -> 0 <= ev_retries ev -> contexts_of r <= 65536 ->
  match m s with
  | (Ok (Some mt), _, _) => m_params mt = PLlm model (ev_retries ev) /\
      ((m_type mt = ty /\ exists v, m_value mt = VNum v /\ in_range ty v) \/ (m_type mt = ErrorType /\ exists i, m_value mt = VError i))
  | (Ok None, _, _) | (Invalid _, _, _) => False
  | (Raised e, _, tr) => Exists (fun x => raises_by py x e) tr \/ gap py r ty e tr
  end.
Proof.
  intros Hpy Hin Hc Hr HN. destruct (forall2_in_r _ _ _ (methods_rel py new ev r) _ Hin) as ((ty' & m') & Hin' & E & R). cbn [fst snd] in E, R. subst ty'.
  pose proof (method_safe py ev r ty m' c model s Hpy Hin' Hc Hr) as S0. destruct (R s) as (H & _ & Ht).
  destruct (m' s) as [[o s1] t1], (m s) as [[o' s1'] t1']. cbn [fst snd] in H, Ht. subst t1'.
  destruct o as [[mt|]|i|e]; try contradiction; destruct o' as [[mt'|]|i'|e']; cbn in H; try contradiction.
  - destruct H as (T & P & V). destruct S0 as (P0 & S0). split; [congruence|]. destruct S0 as [(T0 & q & V0 & R0)|(T0 & i & V0)].
    + left. split; [congruence|]. rewrite V0 in V. destruct (m_value mt') as [v|?|?]; try contradiction. exists v. split; [reflexivity|]. rewrite T0 in V.
      assert (D : ty = SummaryCoherence \/ ty <> SummaryCoherence) by (destruct ty; (left; reflexivity) || (right; discriminate)). destruct D as [->|D].
      * cbn in V. rewrite V. exact R0.
      * pose proof (reported_range new r ty q v D HN V) as K. destruct ty; try exact K. congruence.
    + right. split; [congruence|]. rewrite V0 in V. destruct (m_value mt') as [v|?|?]; try contradiction; try discriminate. exists i. symmetry. exact V.
  - subst e'. exact S0.
Qed.

Section D.
  Variables err_name err_text : invalid -> text.
  Lemma guided_is {St} py new (ev : evaluator St) r ty m c model s mt s' tr : python_ok py -> In (ty, m) (fguided_methods py new ev r) ->
    ev_client ev = Some (c, Some model) -> 0 <= ev_retries ev -> contexts_of r <= 65536 -> m s = (Ok mt, s', tr) ->
    exists name mt', In (ty, name) guided_names /\ mt = Some mt' /\ guided_doc err_name err_text model (ev_retries ev) (ty, name) (to_doc err_name err_text mt').
  Proof.
    intros Hpy Hin Hc Hr HN E. pose proof (float_safe py new ev r ty m c model s Hpy Hin Hc Hr HN) as S0. rewrite E in S0. destruct mt as [mt|]; [|contradiction].
    destruct S0 as (P & S0). assert (G : exists name, In (ty, name) guided_names /\ type_name ty = lit name /\ ty <> ErrorType /\ ty <> ROUGE /\ ty <> BLEU).
    { unfold fguided_methods in Hin. cbv zeta in Hin. cbn [In] in Hin. repeat destruct Hin as [Hin|Hin]; try contradiction; injection Hin as <- _;
      eexists; (split; [unfold guided_names; cbn [In]; tauto|split; [reflexivity|split; [discriminate|split; discriminate]]]). }
    destruct G as (name & G1 & G2 & G3 & G4 & G5). exists name, mt. split; [exact G1|]. split; [reflexivity|]. unfold guided_doc, to_doc, entry_doc. cbn [fst snd].
    rewrite P. cbn [params_doc]. destruct S0 as [(T & v & V & R)|(T & i & V)].
    - left. exists (value_doc err_name err_text mt). split; [rewrite T, G2; reflexivity|]. unfold value_doc. rewrite V, T. destruct ty; try (exists v; split; [reflexivity|exact R]); try congruence.
      cbn in R. cbn [score_doc]. destruct R as (z & Hz & Hq). exists z. split; [|exact Hq]. f_equal. rewrite Hz.
      unfold Qred, inject_Z. pose proof (Z.ggcd_correct_divisors z 1) as D. pose proof (Z.ggcd_gcd z 1) as D2. destruct (Z.ggcd z 1) as [g [aa bb]]. cbn [fst snd] in *.
      rewrite Z.gcd_1_r in D2. subst g. cbn. lia.
    - right. exists i. rewrite T. unfold value_doc. rewrite V. reflexivity.
  Qed.

  Lemma in_turn_docs {St} (P : mtype * string -> tdoc -> Prop) (ms : list (mtype * method St (option metric))) s res s' tr : in_turn ms s res s' tr ->
    forall names, List.map fst names = List.map fst ms ->
    (forall x m s0 v s1 t0, In x names -> In (fst x, m) ms -> m s0 = (Ok v, s1, t0) -> exists mt, v = Some mt /\ P x (to_doc err_name err_text mt)) ->
    exists gs, shows_docs err_name err_text res gs /\ Forall2 P names gs.
  Proof.
    induction 1 as [s|ty m ms s v s1 t1 res s2 t2 E T IH]; intros names Hn H.
    - destruct names; [|discriminate]. exists []. split; constructor.
    - destruct names as [|x names]; [discriminate|]. cbn [List.map fst] in Hn. injection Hn as Hx Hn.
      destruct (H x m s v s1 t1 (or_introl eq_refl) ltac:(left; rewrite Hx; reflexivity) E) as (mt & -> & Pm).
      destruct (IH names Hn) as (gs & Hg & Hp); [intros y m0 s0 w s3 t0 Hy Hm; apply H; [right; exact Hy|right; exact Hm]|].
      exists (to_doc err_name err_text mt :: gs). split; [|constructor; assumption]. unfold shows_docs in *. cbn [flat_map snd]. constructor; [|exact Hg]. exists mt. split; reflexivity.
  Qed.
  Lemma guided_name_fun x y : In x guided_names -> In y guided_names -> fst x = fst y -> x = y.
  Proof. unfold guided_names. cbn [In]. intros Hx Hy. repeat (destruct Hx as [<-|Hx]; [repeat (destruct Hy as [<-|Hy]; [cbn; congruence|]); contradiction|]). contradiction. Qed.

  Theorem all_docs {St} py new n (ev : evaluator St) r w types stem c model s res s' tr : python_ok py -> ev_client ev = Some (c, Some model) ->
    0 <= ev_retries ev -> contexts_of r <= 65536 -> fcompute_all py new n ev r w types stem s = (Ok res, s', tr) ->
    exists gs rs b, shows_docs err_name err_text res (gs ++ rs ++ [b]) /\ Forall2 (guided_doc err_name err_text model (ev_retries ev)) guided_names gs
      /\ (exists ts, NoDup ts /\ (forall t, In t ts -> In t types) /\ (NoDup types -> (forall x, nlp_rouge n (qr_response r) x types stem <> Ok None) -> ts = types) /\ Forall2 (rouge_doc stem) ts rs)
      /\ bleu_doc w b.
  Proof.
    intros Hpy Hc Hr HN E. unfold fcompute_all, mbind, mret in E.
    destruct (run_methods (fguided_methods py new ev r) s) as [[o s1] t1] eqn:ER. destruct o as [g|i|e]; [|discriminate|discriminate].
    destruct (compute_rouge n r types stem) as [rouges|i|e] eqn:Er; [|discriminate|discriminate].
    destruct (compute_sentence_bleu n r w) as [b|i|e] eqn:Eb; [|discriminate|discriminate]. injection E as <- <- _.
    apply run_methods_ok in ER.
    destruct (in_turn_docs (guided_doc err_name err_text model (ev_retries ev)) _ _ _ _ _ ER guided_names eq_refl) as (gs & Hg & Hp).
    { intros x m s0 v s2 t0 Hx Hm Em. destruct (guided_is py new ev r (fst x) m c model s0 v s2 t0 Hpy Hm Hc Hr HN Em) as (name & mt & Hn & -> & D).
      exists mt. split; [reflexivity|]. rewrite (guided_name_fun x (fst x, name) Hx Hn eq_refl). exact D. }
    exists gs, (List.map (to_doc err_name err_text) rouges), (to_doc err_name err_text b). split; [|split; [exact Hp|split]].
    - unfold shows_docs in *. rewrite flat_map_app. apply Forall2_app; [exact Hg|]. cbn [flat_map snd]. rewrite app_nil_r. apply Forall2_app.
      + clear. induction rouges as [|x l IH]; constructor; [exists x; split; reflexivity|exact IH].
      + constructor; [exists b; split; reflexivity|constructor].
    - unfold compute_rouge in Er. destruct (qr_context r) as [x|]; [|discriminate].
      destruct (calculate_rouge_scores n (qr_response r) (groundtruth x) types stem) as [scores|i|e] eqn:C; [|discriminate..]. injection Er as <-.
      exists (List.map fst scores). assert (F : Forall2 (rouge_doc stem) (List.map fst scores) (List.map (to_doc err_name err_text) (List.map (fun kv => MkMetric ROUGE (VFloat (snd kv)) (PRouge (fst kv) stem)) scores))).
      { clear. induction scores as [|kv l IH]; constructor; [exists (snd kv); reflexivity|exact IH]. }
      assert (K : NoDup (List.map fst scores) /\ (forall t, In t (List.map fst scores) -> In t types) /\ (NoDup types -> (forall x, nlp_rouge n (qr_response r) x types stem <> Ok None) -> List.map fst scores = types)).
      { destruct (nlp_rouge n (qr_response r) (groundtruth x) types stem) as [[metrics|]|i|e] eqn:E.
        - apply (rouge_ok n _ _ _ _ _ E) in C. destruct C as [_ ->]. rewrite map_map. cbn [fst]. rewrite map_id. split; [apply firsts_nodup|]. split.
          + intros t Ht. apply firsts_in in Ht. apply Ht.
          + intros N _. apply firsts_id; [exact N|intros t _ []].
        - unfold calculate_rouge_scores in C. rewrite E in C. injection C as <-. split; [constructor|]. split; [intros t []|]. intros _ H. exfalso. exact (H _ E).
        - unfold calculate_rouge_scores in C. rewrite E in C. discriminate.
        - unfold calculate_rouge_scores in C. rewrite E in C. discriminate. }
      destruct K as (K1 & K2 & K3). split; [exact K1|]. split; [exact K2|]. split; [exact K3|exact F].
    - unfold compute_sentence_bleu in Eb. destruct (qr_context r) as [x|]; [|discriminate].
      destruct (calculate_sentence_bleu n (qr_response r) (groundtruth x) w) as [f|i|e]; [|discriminate..]. injection Eb as <-. exists f. reflexivity.
  Qed.

  (* no two documents but errors have the same type and parameters *)
  Lemma nodup_join {A} (l1 l2 : list A) : NoDup l1 -> NoDup l2 -> (forall x, In x l1 -> In x l2 -> False) -> NoDup (l1 ++ l2).
  Proof.
    induction 1 as [|a l1 Ha _ IH]; intros H2 D; [exact H2|]. cbn [app]. constructor.
    - rewrite in_app_iff. intros [X|X]; [exact (Ha X)|exact (D a (or_introl eq_refl) X)].
    - apply IH; [exact H2|]. intros x X. apply D. right. exact X.
  Qed.
  Definition labels (model : text) (k : Z) (stem : bool) (ts : list text) (w : list flt) : list (tdoc * tdoc) :=
    List.map (fun x => (TStr (lit (snd x)), params_doc (PLlm model k))) guided_names
    ++ List.map (fun t => (TStr (lit "ROUGE"), params_doc (PRouge t stem))) ts ++ [(TStr (lit "BLEU"), params_doc (PBleu w))].
  Lemma labels_nodup model k stem ts w : NoDup ts -> NoDup (labels model k stem ts w).
  Proof.
    intros H. unfold labels. generalize (params_doc (PLlm model k)) as ps, (params_doc (PBleu w)) as pw. intros ps pw.
    assert (B : NoDup (List.map (fun t => (TStr (lit "ROUGE"), params_doc (PRouge t stem))) ts ++ [(TStr (lit "BLEU"), pw)])).
    { apply nodup_join.
      - apply FinFun.Injective_map_NoDup; [|exact H]. intros a b X. injection X as ->. reflexivity.
      - constructor; [intros []|constructor].
      - intros x Hx [<-|[]]. apply in_map_iff in Hx. destruct Hx as (t & X & _). discriminate X. }
    apply nodup_join; [|exact B|].
    - unfold guided_names. cbn [List.map snd]. repeat (constructor; [intros X; cbn [In] in X; repeat (destruct X as [X|X]; [discriminate X|]); exact X|]). constructor.
    - intros x Hx Hy. apply in_app_iff in Hy. unfold guided_names in Hx. cbn [List.map snd In] in Hx.
      destruct Hy as [Hy|[<-|[]]].
      + apply in_map_iff in Hy. destruct Hy as (t & <- & _). repeat (destruct Hx as [X|Hx]; [discriminate X|]). exact Hx.
      + repeat (destruct Hx as [X|Hx]; [discriminate X|]). exact Hx.
  Qed.
  Lemma labels_no_error model k stem ts w : Forall (fun l => forall ps, l <> (TStr (lit "Error"), ps)) (labels model k stem ts w).
  Proof.
    unfold labels. apply Forall_app. split; [|apply Forall_app; split].
    - unfold guided_names. cbn [List.map snd]. repeat (constructor; [intros ps X; discriminate X|]). constructor.
    - apply Forall_forall. intros l Hl. apply in_map_iff in Hl. destruct Hl as (t & <- & _). intros ps X. discriminate X.
    - constructor; [intros ps X; discriminate X|constructor].
  Qed.
  Lemma forall2_nth {A B} (R : A -> B -> Prop) l l' : Forall2 R l l' -> forall i y, nth_error l' i = Some y -> exists x, nth_error l i = Some x /\ R x y.
  Proof. induction 1 as [|a b l l' H _ IH]; intros [|i] y Hy; cbn in Hy; try discriminate; [injection Hy as <-; exists a; split; [reflexivity|exact H]|apply IH; exact Hy]. Qed.
  Lemma forall2_map {A A' B} (f : A -> A') (R : A -> B -> Prop) (R' : A' -> B -> Prop) l l' : Forall2 R l l' -> (forall a b, R a b -> R' (f a) b) -> Forall2 R' (List.map f l) l'.
  Proof. intros H K. induction H; constructor; auto. Qed.
  Theorem told_apart model k stem ts w gs rs b : NoDup ts -> Forall2 (guided_doc err_name err_text model k) guided_names gs ->
    Forall2 (rouge_doc stem) ts rs -> bleu_doc w b ->
    forall i j d d', i <> j -> nth_error (gs ++ rs ++ [b]) i = Some d -> nth_error (gs ++ rs ++ [b]) j = Some d' -> ~ is_error d -> identity_of d <> identity_of d'.
  Proof.
    intros HT HG HR HB i j d d' Hij Hi Hj NE EQ.
    assert (F : Forall2 (fun l x => identity_of x = Some l \/ is_error x) (labels model k stem ts w) (gs ++ rs ++ [b])).
    { unfold labels. apply Forall2_app; [|apply Forall2_app].
      - refine (forall2_map _ _ _ _ _ HG _). intros x y [(v & -> & _)|(e & ->)]; [left; reflexivity|right; eexists; eexists; reflexivity].
      - refine (forall2_map _ _ _ _ _ HR _). intros x y (f & ->). left. reflexivity.
      - constructor; [|constructor]. destruct HB as (f & ->). left. reflexivity. }
    destruct (forall2_nth _ _ _ F i d Hi) as (l & Hl & [L|L]); [|contradiction]. destruct (forall2_nth _ _ _ F j d' Hj) as (l' & Hl' & [L'|L']).
    - rewrite L, L' in EQ. injection EQ as <-. apply Hij. apply (proj1 (NoDup_nth_error _) (labels_nodup model k stem ts w HT)); [apply nth_error_Some; congruence|congruence].
    - destruct L' as (v & ps & ->). rewrite L in EQ. cbn [identity_of entry_doc] in EQ. injection EQ as EQ.
      pose proof (labels_no_error model k stem ts w) as NL. rewrite Forall_forall in NL. apply (NL l (nth_error_In _ _ Hl) ps). exact EQ.
  Qed.
End D.
