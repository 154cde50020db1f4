(** Lemmas about the text of remote exceptions. *)
From Verif Require Import Py ErrTextModel ErrTextSpec.
Local Open Scope N_scope.

Lemma contains_trans a b c : contains a b -> contains b c -> contains a c.
Proof. intros (x & y & ->) (z & w & ->). exists (x ++ z)%list, (w ++ y)%list. now rewrite !app_assoc. Qed.
Lemma contains_refl t : contains t t.
Proof. exists [], []. now rewrite app_nil_r. Qed.
Lemma contains_concat tb t : In t tb -> contains (List.concat tb) t.
Proof. intro I. apply in_split in I. destruct I as (l & r & ->). rewrite concat_app. cbn. exists (List.concat l), (List.concat r). reflexivity. Qed.
Lemma last_str e : contains (last_line e) (str_exc e).
Proof.
  unfold last_line. destruct (str_exc e) as [|c m].
  - exists [], (qual_of e ++ [10])%list. reflexivity.
  - exists (qual_of e ++ lit ": ")%list, [10]. now rewrite <- app_assoc.
Qed.
Lemma in_last h e : In (last_line e) (transcript h e).
Proof. unfold transcript. repeat (apply in_or_app; right). left. reflexivity. Qed.
Lemma remote_says t h e : contains (str_exc (Remote t (transcript h e))) (last_line e).
Proof.
  eapply contains_trans; [|apply contains_concat, (in_last h)]. cbn [str_exc]. exists (lit (String "010" "===> Remote exception was:") ++ [10])%list, [].
  now rewrite app_nil_r, <- app_assoc.
Qed.
Lemma reply_is f h e e' : reply f h e = Some e' -> e' = Remote (cls_of e) (transcript h e).
Proof. unfold reply. destruct (dumps_ok _ _ _); congruence. Qed.
Lemma keeps hs e e' : travels hs e e' -> contains (str_exc e') (str_exc e).
Proof.
  induction 1 as [e|f h r e e1 e2 R T IH]; [apply contains_refl|]. apply reply_is in R. subst e1.
  eapply contains_trans; [exact IH|]. eapply contains_trans; [apply remote_says|apply last_str].
Qed.
Lemma says_all hs m c t e' : hs <> [] -> t <> [] -> travels hs (Plain m c t) e' -> contains (str_exc e') (m ++ c ++ lit ": " ++ t)%list.
Proof.
  intros N T X. inversion X as [|f h r e e1 e2 R Y]; subst; [congruence|]. apply reply_is in R. subst e1.
  eapply contains_trans; [apply (keeps _ _ _ Y)|]. eapply contains_trans; [apply remote_says|].
  unfold last_line. cbn. destruct t; [congruence|]. exists [], [10]. cbn. rewrite <- !app_assoc. reflexivity.
Qed.
Lemma names_type f h m c t e' : travels [(f, h)] (Plain m c t) e' -> exists tb, e' = Remote c tb.
Proof. intro X. inversion X as [|? ? ? ? ? ? R Y]; subst. inversion Y; subst. apply reply_is in R. subst. eexists; reflexivity. Qed.

Lemma clean_iff t : clean t <-> encodable t = true.
Proof.
  unfold clean, encodable. rewrite forallb_forall. unfold surrogate. split; intros H c I; specialize (H c I).
  - destruct (N.leb_spec 55296 c), (N.leb_spec c 57343); cbn; try reflexivity; lia.
  - destruct (N.leb_spec 55296 c), (N.leb_spec c 57343); cbn in H; try discriminate; lia.
Qed.
Lemma enc_app a b : encodable (a ++ b)%list = encodable a && encodable b.
Proof. apply forallb_app. Qed.
Lemma enc_concat l : encodable (List.concat l) = forallb encodable l.
Proof. induction l; cbn; [reflexivity|]. now rewrite enc_app, IHl. Qed.
Lemma enc_last e : encodable (qual_of e) = true -> encodable (str_exc e) = true -> encodable (last_line e) = true.
Proof. intros A B. unfold last_line. destruct (str_exc e); rewrite ?enc_app, A; [reflexivity|]. rewrite B. reflexivity. Qed.
Lemma clean_ok r : clean_req r -> reply (er_fmt r) (er_hop r) (er_exc r) <> None.
Proof.
  intros (C1 & C2 & C3 & C4). unfold reply. destruct (er_fmt r); [|cbn; discriminate]. unfold dumps_ok.
  assert (Q : encodable (cls_of (er_exc r)) = true /\ encodable (qual_of (er_exc r)) = true /\ encodable (str_exc (er_exc r)) = true).
  { destruct (er_exc r) as [m c t|t tb]; cbn [cls_of qual_of str_exc].
    - destruct C4 as (A & B & C). rewrite enc_app. apply clean_iff in A, B, C. now rewrite A, B, C.
    - split; [reflexivity|]. split; [reflexivity|]. rewrite !enc_app, enc_concat. cbn [andb]. destruct C4 as (_ & C4).
      replace (encodable (lit (String "010" "===> Remote exception was:"))) with true by reflexivity. cbn. apply forallb_forall. intros x I. apply clean_iff. auto. }
  destruct Q as (Q1 & Q2 & Q3).
  assert (F : forallb encodable (transcript (er_hop r) (er_exc r)) = true).
  { unfold transcript. rewrite !forallb_app. apply clean_iff in C1. apply clean_iff in C2. cbn [forallb]. rewrite !enc_app, C1, C2, (enc_last _ Q2 Q3).
    assert (S1 : forallb encodable (h_stack (er_hop r)) = true) by (apply forallb_forall; intros x I; apply clean_iff, C3, in_or_app; auto).
    assert (S2 : forallb encodable (h_frames (er_hop r)) = true) by (apply forallb_forall; intros x I; apply clean_iff, C3, in_or_app; auto).
    rewrite S1, S2. reflexivity. }
  rewrite Q1, F. cbn. discriminate.
Qed.
Lemma answered rs : forall s, es_alive s = true -> (forall r, In r rs -> er_fmt r = Json \/ clean_req r) ->
  let s' := eserve_all s rs in es_alive s' = true /\ map fst (es_out s') = (map fst (es_out s) ++ map er_id rs)%list.
Proof.
  induction rs as [|r rs IH]; intros s A H; cbn.
  - split; [exact A|now rewrite app_nil_r].
  - unfold eserve at 2 4. rewrite A. assert (X : reply (er_fmt r) (er_hop r) (er_exc r) <> None).
    { destruct (H r (or_introl eq_refl)) as [J|J]; [unfold reply; rewrite J; discriminate|now apply clean_ok]. }
    destruct (reply _ _ _) as [e|]; [|congruence]. specialize (IH (mkES true (es_out s ++ [(er_id r, e)])%list) eq_refl (fun q I => H q (or_intror I))).
    destruct IH as (B & C). split; [exact B|]. cbn in C. unfold eserve_all in C. rewrite C. rewrite map_app, <- app_assoc. reflexivity.
Qed.
Lemma dead_stays rs s : es_alive s = false -> eserve_all s rs = s.
Proof. intro D. induction rs as [|r rs IH]; [reflexivity|]. cbn. unfold eserve at 2. rewrite D. exact IH. Qed.
Lemma dirty_last m c t x : In x t -> surrogate x = true -> encodable (last_line (Plain m c t)) = false.
Proof.
  intros I X. destruct (encodable (last_line (Plain m c t))) eqn:E; [|reflexivity]. exfalso.
  destruct (last_str (Plain m c t)) as (a & b & L). rewrite L, !enc_app in E. apply andb_true_iff in E. destruct E as (_ & E). apply andb_true_iff in E. destruct E as (E & _).
  cbn [str_exc] in E. pose proof (proj1 (forallb_forall _ _) E x I) as Q. cbv beta in Q. rewrite X in Q. discriminate Q.
Qed.
Lemma ends_server s i h m c t x more : In x t -> 55296 <= x <= 57343 ->
  let s' := eserve_all s (mkER i Msgpack h (Plain m c t) :: more) in es_alive s' = false /\ es_out s' = es_out s.
Proof.
  intros I B. assert (X : surrogate x = true) by (unfold surrogate; destruct (N.leb_spec 55296 x), (N.leb_spec x 57343); cbn; try reflexivity; lia).
  cbn [eserve_all fold_left]. change (fold_left eserve more ?s1) with (eserve_all s1 more).
  unfold eserve. destruct (es_alive s) eqn:A; [|rewrite dead_stays by exact A; auto]. cbn.
  assert (R : reply Msgpack h (Plain m c t) = None).
  { unfold reply. cbn [dumps_ok]. replace (forallb encodable (transcript h (Plain m c t))) with false; [rewrite andb_false_r; reflexivity|].
    symmetry. destruct (forallb _ _) eqn:E; [|reflexivity]. rewrite forallb_forall in E. specialize (E _ (in_last h _)). rewrite (dirty_last m c t x I X) in E. discriminate. }
  rewrite R. rewrite dead_stays by reflexivity. auto.
Qed.
