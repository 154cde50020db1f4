(** Lemmas about printing. *)
From Coq Require Import DecimalString DecimalZ.
From Verif Require Import Py ObjTableModel SerModel FrameModel ServerModel ProxyModel ProxySpec SyncOpModel ReprModel ReprSpec FrameProofs ProxyProofs.

Lemma app_assoc_s a b c : ((a ++ b) ++ c = a ++ (b ++ c))%string.
Proof. induction a as [|x a IH]; cbn; [reflexivity|now rewrite IH]. Qed.
Lemma app_inj_l a : forall b c, (a ++ b = a ++ c)%string -> b = c.
Proof. induction a as [|x a IH]; intros b c H; cbn in H; [exact H|]. injection H as H. auto. Qed.
Lemma app_nil_s a : (a ++ "" = a)%string.
Proof. induction a as [|x a IH]; cbn; [reflexivity|now rewrite IH]. Qed.
Lemma slen_app a b : String.length (a ++ b) = (String.length a + String.length b)%nat.
Proof. induction a as [|x a IH]; cbn; [reflexivity|now rewrite IH]. Qed.
Lemma app_inj_r c : forall a b, (a ++ c = b ++ c)%string -> a = b.
Proof.
  intros a. induction a as [|x a IH]; intros b H.
  - destruct b as [|y b]; [reflexivity|]. exfalso. apply (f_equal String.length) in H. rewrite !slen_app in H. cbn in H. lia.
  - destruct b as [|y b]; cbn in H.
    + exfalso. apply (f_equal String.length) in H. cbn in H. rewrite slen_app in H. lia.
    + injection H as -> H. f_equal. apply IH. exact H.
Qed.
Lemma cut c : forall a b r s, lacks c a -> lacks c b -> (a ++ String c r = b ++ String c s)%string -> a = b /\ r = s.
Proof.
  induction a as [|x a IH]; intros [|y b] r s A B H; cbn in H.
  - injection H as H. auto.
  - injection H as -> _. destruct B as (B & _). congruence.
  - injection H as -> _. destruct A as (A & _). congruence.
  - injection H as -> H. destruct A as (_ & A), B as (_ & B). destruct (IH b r s A B H) as (-> & ->). auto.
Qed.
Lemma str_of_Z_inj a b : str_of_Z a = str_of_Z b -> a = b.
Proof. intro E. apply (f_equal py_int) in E. rewrite !py_int_str in E. congruence. Qed.
Lemma str_of_Z_lacks z : lacks "]" (str_of_Z z).
Proof.
  pose proof (str_of_Z_plain z) as H. induction (str_of_Z z) as [|c s IH]; [exact I|].
  cbn in H. inversion H as [|? ? Hc Hs]; subst. split; [intros ->; vm_compute in Hc; discriminate|apply IH; exact Hs].
Qed.
Definition tail (l : list string) : string := fold_right (fun a r => ("." ++ a ++ r)%string) "" l.
Lemma dotted_tail l : forall t, dotted t l = (t ++ tail l)%string.
Proof.
  induction l as [|a l IH]; intro t; cbn; [now rewrite app_nil_s|]. rewrite IH. cbn. now rewrite !app_assoc_s.
Qed.
Lemma tail_inj : forall l m, Forall (lacks ".") l -> Forall (lacks ".") m -> tail l = tail m -> l = m.
Proof.
  assert (S : forall a b l m, lacks "." a -> lacks "." b -> (a ++ tail l = b ++ tail m)%string ->
    a = b /\ tail l = tail m).
  { assert (T : forall l, tail l = "" \/ exists r, tail l = String "." r) by (intros [|a l]; cbn; eauto).
    assert (G : forall a b r, lacks "." a -> a <> (b ++ String "." r)%string).
    { intros a b r. revert a. induction b as [|x b IH]; intros a A E; subst; cbn in A; [destruct A; congruence|]. destruct A as (_ & A). eapply IH; eauto. }
    intros a b l m A B E. destruct (T l) as [El|(r & El)], (T m) as [Em|(s & Em)]; rewrite El, Em in E |- *; rewrite ?app_nil_s in E.
    - auto.
    - exfalso. exact (G _ _ _ A E).
    - exfalso. symmetry in E. exact (G _ _ _ B E).
    - destruct (cut _ _ _ _ _ A B E) as (-> & ->). auto. }
  induction l as [|a l IH]; intros [|b m] L M E; cbn in E; try discriminate; [reflexivity|].
  injection E as E. inversion L; inversion M; subst. destruct (S _ _ _ _ H1 H5 E) as (-> & E'). f_equal. auto.
Qed.

Lemma rep_inj p q s t : lacks "[" (p_addr (x_rec p)) -> lacks "[" (p_addr (x_rec q)) -> rep p s = rep q t ->
  p_addr (x_rec p) = p_addr (x_rec q) /\ p_oid (x_rec p) = p_oid (x_rec q) /\ s = t.
Proof.
  unfold rep. intros A B E. apply app_inj_l in E. cbn [append] in E.
  destruct (cut _ _ _ _ _ A B E) as (E1 & E2). split; [exact E1|].
  destruct (cut _ _ _ _ _ (str_of_Z_lacks _) (str_of_Z_lacks _) E2) as (E3 & E4). split; [apply str_of_Z_inj; exact E3|].
  injection E4 as E4. eapply app_inj_r; exact E4.
Qed.
Lemma safe_true p : opt p "safe_print" = VBool true <-> safe p = true.
Proof. unfold safe. destruct (opt p "safe_print"); try (split; discriminate). destruct b; split; congruence. Qed.

Lemma local_text p : opt p "safe_print" = VBool true ->
  exists t, str_start p = Text t /\ repr_start p = Text t.
Proof. intro S. apply safe_true in S. unfold str_start, repr_start. rewrite S. eauto. Qed.
Lemma ask_local p : local (str_start p) /\ local (repr_start p) <-> opt p "safe_print" = VBool true.
Proof.
  split.
  - intros (A & _). apply safe_true. unfold str_start in A. destruct (safe p); [reflexivity|destruct A].
  - intro S. destruct (local_text p S) as (t & -> & ->). cbn. auto.
Qed.
Lemma safe_same p show f g q r r' : opt p "safe_print" = VBool true ->
  exists t, str_px p f q r = Ok t /\ repr_px p show g q r' = Ok t.
Proof. intro S. destruct (local_text p S) as (t & A & B). exists t. unfold str_px, repr_px. rewrite A, B. auto. Qed.
Lemma identifies p q t : opt p "safe_print" = VBool true -> opt q "safe_print" = VBool true ->
  lacks "[" (p_addr (x_rec p)) -> lacks "[" (p_addr (x_rec q)) -> repr_start p = Text t -> repr_start q = Text t ->
  p_addr (x_rec p) = p_addr (x_rec q) /\ p_oid (x_rec p) = p_oid (x_rec q) /\
  (p_type (x_rec p) = p_type (x_rec q) -> Forall (lacks ".") (p_attrs (x_rec p)) -> Forall (lacks ".") (p_attrs (x_rec q)) ->
     p_attrs (x_rec p) = p_attrs (x_rec q)).
Proof.
  intros S1 S2 A B E1 E2. apply safe_true in S1, S2. unfold repr_start in *. rewrite S1 in E1. rewrite S2 in E2.
  injection E1 as E1. injection E2 as E2. rewrite <- E2 in E1. destruct (rep_inj _ _ _ _ A B E1) as (X & Y & Z).
  split; [exact X|]. split; [exact Y|]. intros T L M. rewrite !dotted_tail, T in Z. apply app_inj_l in Z. apply tail_inj; auto.
Qed.
Lemma asks p a : made p -> exists rid,
  bind (deferred p a []) (fun d => Ok (call d [] [("_return_type", VStr "value")])) =
  Ok (mkSending rid (opt p "sync") (VStr "value") (opt p "timeout")).
Proof.
  intros M. apply made_well in M.
  destruct (deferred_ok p a [] M) as (q & -> & _ & _ & _ & Q); [constructor|intros k []|].
  cbn [bind]. unfold call. cbn [kwpop String.eqb]. cbn -[opt]. eexists. f_equal.
  assert (Qs : forall k, opt q k = opt p k). { intro k. exact (Q k). }
  rewrite !Qs. reflexivity.
Qed.
Lemma unsafe_str p f q r : made p -> opt p "safe_print" <> VBool true -> opt p "sync" = VStr "sync" ->
  str_px p f q r = bind (at_client r) (fun v => match v with VStr s => Ok s | _ => Err TypeError end).
Proof.
  intros M S Y. unfold str_px, str_start. destruct (safe p) eqn:E; [apply safe_true in E; contradiction|].
  destruct (asks p "__str__" M) as (x & ->). unfold returned. cbn [sn_sync sn_rt]. rewrite Y. destruct r; reflexivity.
Qed.
Lemma unsafe_repr p show f q s : made p -> opt p "safe_print" <> VBool true -> opt p "sync" = VStr "sync" ->
  exists t, repr_px p show f q (Ok (VStr s)) = Ok t /\ proxy_text t s.
Proof.
  intros M S Y. unfold repr_px, repr_start. destruct (safe p) eqn:E; [apply safe_true in E; contradiction|].
  destruct (asks p "__repr__" M) as (x & ->). unfold returned. cbn [sn_sync sn_rt]. rewrite Y. cbn [bind].
  eexists. split; [reflexivity|]. unfold rep. exists (p_addr (x_rec p) ++ "[" ++ str_of_Z (p_oid (x_rec p)) ++ "]")%string.
  rewrite !app_assoc_s. reflexivity.
Qed.
Lemma unsafe_str_other p f q r : made p -> opt p "safe_print" <> VBool true ->
  opt p "sync" = VStr "async" \/ opt p "sync" = VStr "off" -> str_px p f q r = Err TypeError.
Proof.
  intros M S Y. unfold str_px, str_start. destruct (safe p) eqn:E; [apply safe_true in E; contradiction|].
  destruct (asks p "__str__" M) as (x & ->). unfold returned. cbn [sn_sync sn_rt]. destruct Y as [-> | ->]; reflexivity.
Qed.
Lemma unsafe_repr_other p show f q r : made p -> opt p "safe_print" <> VBool true ->
  opt p "sync" = VStr "async" \/ opt p "sync" = VStr "off" ->
  exists t, repr_px p show f q r = Ok t /\ forall r', repr_px p show f q r' = Ok t.
Proof.
  intros M S Y. unfold repr_px, repr_start. destruct (safe p) eqn:E; [apply safe_true in E; contradiction|].
  destruct (asks p "__repr__" M) as (x & ->). unfold returned. cbn [sn_sync sn_rt]. destruct Y as [-> | ->]; cbn; eauto.
Qed.
