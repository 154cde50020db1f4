(** Property C129: dictionaries with keys other than text. *)
From Verif Require Import Py ObjTableModel ObjTableSpec SerModel SerSpec FrameModel ServerModel ClientModel WireSpec KeySpec SerProofs SerProofs2 WireProofs KeyProofs.
From Verif Require Import RpcDemo.

(** C129.  Every dict of values that msgpack carries is accepted by the sender.  If its keys are
    str and bytes (and not the reserved one) it is read as it is, otherwise not at all.
    Missing: other keys (refuted below). *)
Theorem C129_text_keys_partial :
  forall E, good_env E -> forall srv st d, whole_items E 511 d -> NoDup (map fst d) -> (forall v, ~ In (VStr "___type_name___", v) d) ->
  exists w, msgpack_dumps E srv st (VDict d) = (st, Ok w) /\ forall srv2 st2,
    (Forall (fun kv => text_key (fst kv)) d -> unpack E srv2 st2 w = Ok (VDict d)) /\
    (~ Forall (fun kv => text_key (fst kv)) d -> unpack E srv2 st2 w = Err ValueError).
Proof. exact text_keys. Qed.
Print Assumptions C129_text_keys_partial.
(** Nothing is said to the sender about a key of another type, anywhere in the value; the receiver
    gets ValueError for the whole message. *)
Theorem C129_other_keys_refuted :
  forall E, good_env E -> forall v, other_key_in E 512 v -> forall srv st,
  exists w, msgpack_dumps E srv st v = (st, Ok w) /\ forall srv2 st2, unpack E srv2 st2 w = Err ValueError.
Proof. intros E GE v O srv st. exact (other_key_refused E GE 512 v O 512 srv st ltac:(lia)). Qed.
Print Assumptions C129_other_keys_refuted.
(** So a function that returns such a value is executed and its result sent, but the caller gets
    ValueError from reading the reply, and the request stays as it was: pending. *)
Theorem C129_result_lost_refuted :
  forall V, good_venv V -> forall s a v, other_key_in (ve_ser V) 511 v -> served V s (a_caller a) "msgpack" -> 0 <= m_req (a_msg a) ->
  m_action (a_msg a) <> "close" -> m_rt (a_msg a) <> "proxy" ->
  exists p, finish_request V s a (Ok v) = (s, [Sent (a_caller a) p], None) /\
    forall k, c_ser k = "msgpack" -> client_recv V k p = (k, Some ValueError).
Proof. exact result_unreadable. Qed.
Print Assumptions C129_result_lost_refuted.

(** {"a": [{1: "x"}]} *)
Example C129_case : other_key_in (ve_ser demo_V) 511 (VDict [(VStr "a", VList [VDict [(VInt 1, VStr "x")]])]) /\
  whole_items (ve_ser demo_V) 511 [(VInt 1, VStr "x"); (VStr "b", VNone)].
Proof.
  assert (W : forall n, (1 <= n)%nat -> whole (ve_ser demo_V) n (VInt 1) /\ whole (ve_ser demo_V) n (VStr "x") /\ whole (ve_ser demo_V) n (VStr "b") /\ whole (ve_ser demo_V) n VNone).
  { intros n L. repeat split; try exact L. }
  split.
  - apply (ok_value _ 510 [] (VStr "a") _ []); [constructor|constructor|exact I| |constructor].
    apply (ok_list _ 509 [] _ []); [constructor| |constructor]. apply (ok_here _ 508 _ (VInt 1) (VStr "x")); [|left; reflexivity|intros []].
    destruct (W 508%nat ltac:(lia)) as (A & B & _). repeat (constructor; [split; assumption|]). constructor.
  - destruct (W 511%nat ltac:(lia)) as (A & B & C & D). repeat (constructor; [split; assumption|]). constructor.
Qed.
