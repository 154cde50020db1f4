(** Property C142: the text of remote exceptions. *)
From Verif Require Import Py ErrTextModel ErrTextSpec ErrTextProofs.
Local Open Scope N_scope.

(** C142.  Through any number of servers, the text of the exception says the class and message of the one that
    was raised first ... *)
Theorem C142_text_says_it :
  forall hs m c t e', hs <> [] -> t <> [] -> travels hs (Plain m c t) e' ->
  contains (str_exc e') (m ++ c ++ lit ": " ++ t)%list.
Proof. exact says_all. Qed.
Print Assumptions C142_text_says_it.

(** ... and all that the servers before had to say; type_str is the class raised in the server called ... *)
Theorem C142_text_keeps_all :
  forall hs e e', travels hs e e' -> contains (str_exc e') (str_exc e).
Proof. exact keeps. Qed.
Print Assumptions C142_text_keeps_all.
Theorem C142_type_str :
  forall f h m c t e', travels [(f, h)] (Plain m c t) e' -> exists tb, e' = Remote c tb.
Proof. exact names_type. Qed.
Print Assumptions C142_type_str.

(** ... failing requests are answered in order, one each, if all texts can be encoded or the client uses
    JSON ... *)
Theorem C142_answered_partial :
  forall rs s, es_alive s = true -> (forall r, In r rs -> er_fmt r = Json \/ clean_req r) ->
  let s' := eserve_all s rs in es_alive s' = true /\ map fst (es_out s') = (map fst (es_out s) ++ map er_id rs)%list.
Proof. exact answered. Qed.
Print Assumptions C142_answered_partial.

(** ... but violated: a msgpack client that makes the server raise an exception with a surrogate in its message
    gets no answer, and nobody gets one after that: the server's loop has ended. *)
Theorem C142_surrogate_ends_server_refuted :
  forall s i h m c t x more, In x t -> 55296 <= x <= 57343 ->
  let s' := eserve_all s (mkER i Msgpack h (Plain m c t) :: more) in es_alive s' = false /\ es_out s' = es_out s.
Proof. exact ends_server. Qed.
Print Assumptions C142_surrogate_ends_server_refuted.

(** ValueError('no') through two servers; ValueError('\udc80') *)
Definition hop0 : hop := mkHop (lit "h.p.t:tcp://x") (lit "3") [lit "  stack"] [lit "  frame"].
Definition ve (t : text) : pexc := Plain [] (lit "ValueError") t.
Example C142_example :
  (exists e1 e2, travels [(Msgpack, hop0); (Json, hop0)] (ve (lit "no")) e2 /\ reply Msgpack hop0 (ve (lit "no")) = Some e1 /\ e1 <> e2) /\
  clean_req (mkER 1 Msgpack hop0 (ve (lit "no"))) /\
  eserve_all (mkES true []) [mkER 1 Msgpack hop0 (ve [56448]); mkER 2 Msgpack hop0 (ve (lit "no"))] = mkES false [] /\
  map fst (es_out (eserve_all (mkES true []) [mkER 1 Json hop0 (ve [56448]); mkER 2 Msgpack hop0 (ve (lit "no"))])) = [1; 2]%nat.
Proof.
  split.
  - do 2 eexists. split; [econstructor; [vm_compute; reflexivity|]; econstructor; [vm_compute; reflexivity|]; constructor|].
    split; [vm_compute; reflexivity|]. vm_compute. discriminate.
  - split; [|split; vm_compute; reflexivity].
    repeat split; try (apply clean_iff; vm_compute; reflexivity).
    intros t I. cbn in I. destruct I as [<-|[<-|[]]]; apply clean_iff; vm_compute; reflexivity.
Qed.
