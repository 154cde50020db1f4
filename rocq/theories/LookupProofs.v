(** Lemmas about lookup. *)
From Verif Require Import Py ObjTableModel SerModel ServerModel ProxyModel ProxySpec ProxyProofs LookupModel LookupSpec.
Local Open Scope nat_scope.

Lemma binds_iff d m f : binds d m f <-> in_ns d m = Some f.
Proof.
  split.
  - induction 1 as [m f d|k g d m f N B IH]; cbn; [now rewrite String.eqb_refl|].
    destruct (String.eqb_spec k m); [contradiction|exact IH].
  - induction d as [|[k g] d IH]; cbn; [discriminate|]. destruct (String.eqb_spec k m) as [->|N]; [intros [= ->]; constructor|].
    intro H. apply bind_later; auto.
Qed.
Lemma unbound d m : ~ In m (map fst d) <-> in_ns d m = None.
Proof.
  induction d as [|[k g] d IH]; cbn; [tauto|]. destruct (String.eqb_spec k m) as [->|N].
  - split; [intro H; exfalso; auto|discriminate].
  - rewrite <- IH. intuition.
Qed.
Lemma defines_iff c m f : defines c m f <-> in_mro c m = Some f.
Proof.
  split.
  - induction 1 as [d r m f H|d r m f H D IH]; cbn; [apply binds_iff in H|apply unbound in H]; rewrite H; [reflexivity|exact IH].
  - induction c as [|d r IH]; cbn; [discriminate|]. destruct (in_ns d m) eqn:E.
    + intros [= ->]. constructor. now apply binds_iff.
    + intro H. apply def_later; [now apply unbound|auto].
Qed.
Lemma none_defines c m : (forall f, ~ defines c m f) <-> in_mro c m = None.
Proof.
  split; intro H.
  - destruct (in_mro c m) eqn:E; [|reflexivity]. exfalso. apply (H n). now apply defines_iff.
  - intros f D. apply defines_iff in D. congruence.
Qed.
Lemma forwarded_same m : In m (operators ++ printing) -> m <> "__rxor__" -> forwarded m = Some m.
Proof.
  intros I N. unfold forwarded.
  destruct (String.eqb_spec m "__repr__") as [->|E1]; [reflexivity|]. destruct (String.eqb_spec m "__str__") as [->|E2]; [reflexivity|].
  destruct (String.eqb_spec m "__eq__") as [->|E]; [reflexivity|].
  apply in_app_or in I. destruct I as [I|I].
  - destruct (assoc special m) as [a|] eqn:A; [|apply operators_special in I; contradiction].
    rewrite (special_same _ _ A N). reflexivity.
  - exfalso. destruct I as [<-|[<-|[<-|[]]]]; auto.
Qed.
Section L.
  Variables (o : pobj) (m : string).
  Hypothesis (I : In m (operators ++ printing)) (N : m <> "__rxor__").
  Lemma same_method f args : python_calls o m f -> ~ shadowed o m -> by_proxy o m args = Ok (proper f args).
  Proof.
    intros P S. unfold by_proxy. rewrite forwarded_same by assumption. unfold python_calls in P. apply defines_iff in P.
    destruct o as [own mro hook|mro meta]; cbn in *.
    - apply unbound in S; rewrite S. rewrite P. reflexivity.
    - destruct (in_mro mro m) eqn:E; [exfalso; apply S; exists n; now apply defines_iff|]. rewrite P. reflexivity.
  Qed.
  Lemma shadow_calls args : shadowed o m -> exists f, by_proxy o m args = Ok (mkInv f (map Some args)).
  Proof.
    intros S. unfold by_proxy. rewrite forwarded_same by assumption. destruct o as [own mro hook|mro meta]; cbn in *.
    - destruct (in_ns own m) as [f|] eqn:X; [exists f; reflexivity|]. apply unbound in X. contradiction.
    - destruct S as (f & D). apply defines_iff in D. rewrite D. exists f. reflexivity.
  Qed.
  Lemma shadow_differs args f : shadowed o m -> by_proxy o m args <> Ok (proper f args).
  Proof.
    intros S E. destruct (shadow_calls args S) as (g & G). rewrite G in E. injection E as _ E.
    apply (f_equal (@List.length _)) in E. cbn in E. lia.
  Qed.
  Lemma agree_iff f args : python_calls o m f -> (by_proxy o m args = Ok (proper f args) <-> ~ shadowed o m).
  Proof.
    intro P. split; [|apply same_method; exact P]. intros E S. exact (shadow_differs args f S E).
  Qed.
  Lemma missing args : (forall f, ~ python_calls o m f) -> ~ shadowed o m ->
    (forall own mro hook, o = Inst own mro hook -> hook m = None) ->
    by_proxy o m args = Err (RemoteCallException "AttributeError").
  Proof.
    intros P S H. unfold by_proxy. rewrite forwarded_same by assumption. unfold python_calls in P. apply none_defines in P.
    destruct o as [own mro hook|mro meta]; cbn in *.
    - apply unbound in S; rewrite S. rewrite P, (H own mro hook eq_refl). reflexivity.
    - destruct (in_mro mro m) eqn:E; [exfalso; apply S; exists n; now apply defines_iff|]. rewrite P. reflexivity.
  Qed.
End L.
Lemma hook_called own mro hook m f args : In m (operators ++ printing) -> m <> "__rxor__" ->
  (forall g, ~ python_calls (Inst own mro hook) m g) -> ~ shadowed (Inst own mro hook) m -> hook m = Some f ->
  by_proxy (Inst own mro hook) m args = Ok (mkInv f (map Some args)).
Proof.
  intros I N P S H. unfold by_proxy. rewrite forwarded_same by assumption. unfold python_calls in P. apply none_defines in P. cbn in *.
  apply unbound in S; rewrite S. rewrite P, H. reflexivity.
Qed.
