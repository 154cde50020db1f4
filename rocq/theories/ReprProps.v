(** Property C136: printing proxies. *)
From Verif Require Import Py ObjTableModel SerModel ServerModel ClientModel ApiModel ProxyModel ProxySpec RpcDemo SyncOpModel
  ProxyProofs ProxyProps ReprModel ReprSpec ReprProofs.

(** C136.  Printing a proxy contacts nobody exactly when its option safe_print is True ... *)
Theorem C136_contacts_nobody :
  forall p, local (str_start p) /\ local (repr_start p) <-> opt p "safe_print" = VBool true.
Proof. exact ask_local. Qed.
Print Assumptions C136_contacts_nobody.

(** ... then str and repr give the same text, whatever the object would say ... *)
Theorem C136_safe_same_text :
  forall p show f g q r r', opt p "safe_print" = VBool true ->
  exists t, str_px p f q r = Ok t /\ repr_px p show g q r' = Ok t.
Proof. exact safe_same. Qed.
Print Assumptions C136_safe_same_text.

(** ... and the text tells which object is meant, and which attribute of it. *)
Theorem C136_text_identifies :
  forall p q t, opt p "safe_print" = VBool true -> opt q "safe_print" = VBool true ->
  lacks "[" (p_addr (x_rec p)) -> lacks "[" (p_addr (x_rec q)) -> repr_start p = Text t -> repr_start q = Text t ->
  p_addr (x_rec p) = p_addr (x_rec q) /\ p_oid (x_rec p) = p_oid (x_rec q) /\
  (p_type (x_rec p) = p_type (x_rec q) -> Forall (lacks ".") (p_attrs (x_rec p)) -> Forall (lacks ".") (p_attrs (x_rec q)) ->
     p_attrs (x_rec p) = p_attrs (x_rec q)).
Proof. exact identifies. Qed.
Print Assumptions C136_text_identifies.

(** Otherwise str gives what str gives on the server, whatever return_type is (sync being 'sync') ... *)
Theorem C136_unsafe_str_partial :
  forall p f q r, made p -> opt p "safe_print" <> VBool true -> opt p "sync" = VStr "sync" ->
  str_px p f q r = bind (at_client r) (fun v => match v with VStr s => Ok s | _ => Err TypeError end).
Proof. exact unsafe_str. Qed.
Print Assumptions C136_unsafe_str_partial.

(** ... and repr says that it is a proxy and shows the object's. *)
Theorem C136_unsafe_repr_partial :
  forall p show f q s, made p -> opt p "safe_print" <> VBool true -> opt p "sync" = VStr "sync" ->
  exists t, repr_px p show f q (Ok (VStr s)) = Ok t /\ proxy_text t s.
Proof. exact unsafe_repr. Qed.
Print Assumptions C136_unsafe_repr_partial.

(** Violated: with sync 'async' or 'off' str raises TypeError ... *)
Theorem C136_unsafe_str_refuted :
  forall p f q r, made p -> opt p "safe_print" <> VBool true ->
  opt p "sync" = VStr "async" \/ opt p "sync" = VStr "off" -> str_px p f q r = Err TypeError.
Proof. exact unsafe_str_other. Qed.
Print Assumptions C136_unsafe_str_refuted.

(** ... and repr gives the same text whatever the object's says. *)
Theorem C136_unsafe_repr_refuted :
  forall p show f q r, made p -> opt p "safe_print" <> VBool true ->
  opt p "sync" = VStr "async" \/ opt p "sync" = VStr "off" ->
  exists t, repr_px p show f q r = Ok t /\ forall r', repr_px p show f q r' = Ok t.
Proof. exact unsafe_repr_other. Qed.
Print Assumptions C136_unsafe_repr_refuted.

(** A proxy and its attributes "a" and "a.b" ... *)
Definition rx (l : list string) : px := Px (mkP "tcp://s:5" 12 0 "<class 'm.T'>" l) default_options None.
Example C136_example_safe :
  opt x0 "safe_print" = VBool true /\ repr_start (rx ["a"; "b"]) = Text "<ObjectProxy for tcp://s:5[12] <class 'm.T'>.a.b >" /\
  repr_start (rx ["a.b"]) = Text "<ObjectProxy for tcp://s:5[12] <class 'm.T'>.a.b >" /\
  repr_start (rx ["a"]) <> repr_start (rx ["a"; "b"]) /\ lacks "[" "tcp://s:5" /\ Forall (lacks ".") ["a"; "b"].
Proof.
  split; [reflexivity|]. split; [vm_compute; reflexivity|]. split; [vm_compute; reflexivity|].
  split; [vm_compute; discriminate|]. split; [vm_compute; repeat split; discriminate|].
  repeat constructor; discriminate.
Qed.
(** ... and a proxy of which safe_print was set to False, then sync to 'async'. *)
Example C136_example_unsafe :
  exists p p', set_options x0 [("safe_print", VBool false)] = (p, Ok tt) /\ made p /\ opt p "sync" = VStr "sync" /\
    str_px p 0%nat p0 (Ok (VStr "hello")) = Ok "hello" /\ str_px p 0%nat p0 (Err ValueError) = Err (RemoteCallException "ValueError") /\
    repr_px p (fun _ => "?") 0%nat p0 (Ok (VStr "'hello'")) = Ok "<ObjectProxy for tcp://s[0] 'hello' >" /\
    set_options p [("sync", VStr "async")] = (p', Ok tt) /\ made p' /\ opt p' "safe_print" <> VBool true /\
    str_px p' 0%nat p0 (Ok (VStr "hello")) = Err TypeError /\
    repr_px p' (fun _ => "<Future>") 0%nat p0 (Ok (VStr "'hello'")) = Ok "<ObjectProxy for tcp://s[0] <Future> >".
Proof.
  eexists _, _. split; [reflexivity|].
  assert (M : made (fst (set_options x0 [("safe_print", VBool false)]))).
  { apply (made_set x0 [("safe_print", VBool false)]); [exact x0_made| |reflexivity]. repeat constructor; intros []. }
  split; [exact M|]. split; [reflexivity|]. split; [vm_compute; reflexivity|]. split; [vm_compute; reflexivity|].
  split; [vm_compute; reflexivity|]. split; [reflexivity|].
  split; [apply (made_set _ [("sync", VStr "async")] _ M); [repeat constructor; intros []|reflexivity]|].
  split; [vm_compute; discriminate|]. split; vm_compute; reflexivity.
Qed.
