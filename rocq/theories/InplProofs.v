(** Proofs about in-place operators (C132). *)
From Verif Require Import Py ServerModel ProxyModel InplModel InplSpec.
Local Open Scope nat_scope.

Lemma set_obj_same h : forall i x y, nth_error h i = Some y -> nth_error (set_obj h i x) i = Some x.
Proof. induction h as [|z h IH]; intros [|i] x y H; cbn in *; try discriminate; eauto. Qed.
Lemma nth_last {A} (l : list A) x : nth_error (l ++ [x])%list (List.length l) = Some x.
Proof. rewrite nth_error_app2 by lia. now rewrite Nat.sub_diag. Qed.
Lemma call_alive W h i m v h1 j : call_method W h i m v = (h1, Ok (Some j)) -> exists k c, nth_error h1 j = Some (k, c).
Proof.
  unfold call_method. destruct (nth_error h i) as [[k c]|] eqn:E; [|discriminate]. destruct (w_meth W k m) as [f|]; [|discriminate].
  destruct (f c v) as [c'|k' c'| |e]; intros H; inversion H; subst.
  - exists k, c'. eapply set_obj_same, E.
  - exists k', c'. apply nth_last.
Qed.
Lemma forwarded op : In op inplace_ops -> assoc special (iname op) = Some (iname op).
Proof. cbn. intros H. repeat (destruct H as [<-|H]; [reflexivity|]). contradiction. Qed.
Lemma remote_seen W h b i m v h1 r : call_method W h i m v = (h1, r) -> (b = true \/ forall j, r = Ok (Some j) -> kept_remote W h1 j) -> r <> Ok None ->
  remote W h b i m v = (h1, as_seen match r with Ok (Some j) => Ok j | Ok None => Err TypeError | Err e => Err e end).
Proof.
  intros C K N. unfold remote. rewrite C. destruct r as [[j|]|e]; [|congruence|reflexivity].
  destruct (call_alive _ _ _ _ _ _ _ C) as (k & c & A). rewrite A.
  destruct K as [->|K]; [reflexivity|]. rewrite (K j eq_refl k c A). now rewrite orb_true_r.
Qed.
Lemma call_some W h i m v k c f : nth_error h i = Some (k, c) -> w_meth W k m = Some f -> f c v <> NotImpl -> snd (call_method W h i m v) <> Ok None.
Proof. intros A B N. unfold call_method. rewrite A, B. destruct (f c v); cbn; congruence. Qed.

Lemma like_object W h b op i v : In op inplace_ops -> supports W h op i v ->
  (b = true \/ forall h1 j, object_iop W h op i v = (h1, Ok j) -> kept_remote W h1 j) ->
  proxy_iop W h b op i v = (fst (object_iop W h op i v), as_seen (snd (object_iop W h op i v))).
Proof.
  intros O (k & c & f & A & B & N) K. unfold proxy_iop. rewrite (forwarded _ O).
  pose proof (call_some _ _ _ _ _ _ _ _ A B N) as S. destruct (call_method W h i (iname op) v) as [h1 r] eqn:C. cbn [snd] in S.
  assert (E : object_iop W h op i v = (h1, match r with Ok (Some j) => Ok j | Ok None => Err TypeError | Err e => Err e end)).
  { unfold object_iop. rewrite A, B, C. destruct r as [[j|]|e]; [reflexivity|congruence|reflexivity]. }
  rewrite E in *. cbn [fst snd]. apply remote_seen; [exact C| |exact S].
  destruct K as [K|K]; [left; exact K|]. right. intros j ->. apply (K h1 j eq_refl).
Qed.
Lemma mod_ordinary W h b i v k c f : nth_error h i = Some (k, c) -> w_meth W k "__imod__" = None -> w_meth W k "__mod__" = Some f -> f c v <> NotImpl ->
  (b = true \/ forall h1 j, object_iop W h "mod" i v = (h1, Ok j) -> kept_remote W h1 j) ->
  proxy_iop W h b "mod" i v = (fst (object_iop W h "mod" i v), as_seen (snd (object_iop W h "mod" i v))).
Proof.
  intros A I B N K. change (proxy_iop W h b "mod" i v) with (remote W h b i "__mod__" v).
  pose proof (call_some _ _ _ _ _ _ _ _ A B N) as S. destruct (call_method W h i "__mod__" v) as [h1 r] eqn:C. cbn [snd] in S.
  assert (E : object_iop W h "mod" i v = (h1, match r with Ok (Some j) => Ok j | Ok None => Err TypeError | Err e => Err e end)).
  { unfold object_iop. change (iname "mod") with "__imod__"%string. change (bname "mod") with "__mod__"%string. rewrite A, I, B, C. destruct r as [[j|]|e]; reflexivity. }
  rewrite E in *. cbn [fst snd]. apply remote_seen; [exact C| |exact S].
  destruct K as [K|K]; [left; exact K|]. right. intros j ->. apply (K h1 j eq_refl).
Qed.

Lemma becomes_copy W h op i v w k c f c1 c2 : In op inplace_ops -> nth_error h i = Some (k, c) -> w_meth W k (iname op) = Some f ->
  f c v = Self c1 -> f c1 w = Self c2 -> w_sent W k = true ->
  exists h1, proxy_iop W h false op i v = (h1, Ok (HCopy k c1)) /\ nth_error h1 i = Some (k, c1) /\
    name_iop W h1 false op (HCopy k c1) w = (h1, Ok (HCopy k c2)).
Proof.
  intros O A B E1 E2 S. exists (set_obj h i (k, c1)). pose proof (set_obj_same h i (k, c1) _ A) as Q. split; [|split; [exact Q|]].
  - unfold proxy_iop, remote, call_method. rewrite (forwarded _ O), A, B, E1, Q, S. reflexivity.
  - cbn [name_iop]. unfold object_iop. cbn [nth_error]. rewrite B. unfold call_method. cbn [nth_error]. rewrite B, E2. reflexivity.
Qed.
Lemma no_fallback W h b op i v k c f k' c' : In op inplace_ops -> nth_error h i = Some (k, c) -> w_meth W k (iname op) = None ->
  w_meth W k (bname op) = Some f -> f c v = New k' c' ->
  proxy_iop W h b op i v = (h, Err (RemoteCallException "AttributeError")) /\
  object_iop W h op i v = ((h ++ [(k', c')])%list, Ok (List.length h)).
Proof.
  intros O A I B E. split.
  - unfold proxy_iop, remote, call_method. rewrite (forwarded _ O), A, I. reflexivity.
  - unfold object_iop, call_method. rewrite A, I, B, E. reflexivity.
Qed.
Lemma not_implemented W h b op i v k c f : In op inplace_ops -> nth_error h i = Some (k, c) -> w_meth W k (iname op) = Some f -> f c v = NotImpl ->
  proxy_iop W h b op i v = (h, Ok HNot).
Proof. intros O A B E. unfold proxy_iop, remote, call_method. now rewrite (forwarded _ O), A, B, E. Qed.
Lemma mod_not_in_place W h b i v k c f g c1 k' c' : nth_error h i = Some (k, c) -> w_meth W k "__imod__" = Some f -> f c v = Self c1 ->
  w_meth W k "__mod__" = Some g -> g c v = New k' c' -> c <> c1 ->
  nth_error (fst (object_iop W h "mod" i v)) i = Some (k, c1) /\
  nth_error (fst (proxy_iop W h b "mod" i v)) i = Some (k, c).
Proof.
  intros A B E1 G E2 N. split.
  - unfold object_iop. change (iname "mod") with "__imod__"%string. rewrite A, B. unfold call_method. rewrite A, B, E1. cbn [fst]. eapply set_obj_same, A.
  - change (proxy_iop W h b "mod" i v) with (remote W h b i "__mod__" v). unfold remote, call_method. rewrite A, G, E2. cbn [fst].
    rewrite nth_error_app1; [exact A|]. apply nth_error_Some. congruence.
Qed.
