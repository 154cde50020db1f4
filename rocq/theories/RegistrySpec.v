(** Specification vocabulary for the registries. *)
From Verif Require Import Py RegistryModel.
Local Open Scope nat_scope.

(** the idents given to the threads started *)
Definition started (es : list rev) : list nat := flat_map (fun e => match e with TStart _ i => [i] | _ => [] end) es.

(** what has happened so far, with the answers: [tr] can lead to [s] *)
Definition happened (tr : list (rev * rans)) (s : reg) : Prop :=
  exists es l, rev_run reg0 es = Some (s, l) /\ tr = combine es l.
(** the ident of thread [h], if it is running *)
Definition ident (tr : list (rev * rans)) (h : nat) : option nat :=
  fold_left (fun r e => match fst e with
                        | TStart h' i => if Nat.eqb h' h then Some i else r
                        | TEnd h' => if Nat.eqb h' h then None else r
                        | _ => r
                        end) tr None.
(** thread [h], with ident [i], has made the client [c] for address [a] *)
Inductive made : list (rev * rans) -> nat -> nat -> string -> nat -> Prop :=
| made_now tr h a local c i : ident tr h = Some i -> made (tr ++ [(NewC h a local, AClient c)]) h c a i
| made_before tr z h c a i : made tr h c a i -> made (tr ++ [z]) h c a i.
(** the thread with ident [i] closes, or fails to construct, a client for [a] *)
Definition forgets (tr : list (rev * rans)) (e : rev) (i : nat) (a : string) : Prop :=
  exists h c, (e = CloseC h c \/ e = EndC h c false) /\ ident tr h = Some i /\ exists h0 j, made tr h0 c a j.
(** [c] is the last client for [a] made by a thread with ident [i], and none such has
    been closed or has failed in a thread with this ident since *)
Inductive registered : list (rev * rans) -> nat -> string -> nat -> Prop :=
| reg_now tr h a local c i : ident tr h = Some i -> registered (tr ++ [(NewC h a local, AClient c)]) i a c
| reg_before tr e x i a c : registered tr i a c -> ~ forgets tr e i a -> registered (tr ++ [(e, x)]) i a c.

(** registrations of one server that do not overlap *)
Fixpoint apart (s : sreg) (es : list sev) : Prop :=
  match es with
  | [] => True
  | e :: r =>
      match e with RCheck i v => forall j, dget (v_pend s) (j, v) = None | _ => True end /\
      match sev_step s e with Some (s', _) => apart s' r | None => True end
  end.

(** what has happened to the registry of servers so far, with the answers *)
Definition happened_s (tr : list (sev * sans)) (s : sreg) : Prop :=
  exists es l, sev_run sreg0 es = Some (s, l) /\ tr = combine es l.
(** [v] has been put into the thread with ident [i] and not been taken out since *)
Inductive serving : list (sev * sans) -> nat -> nat -> Prop :=
| serv_now tr i v : serving (tr ++ [(RLock i v, SMore)]) i v
| serv_before tr e x i v : serving tr i v -> e <> Unreg v i -> serving (tr ++ [(e, x)]) i v.
(** register_server(v) in that thread has looked at the server, and goes on *)
Inductive asking : list (sev * sans) -> nat -> nat -> Prop :=
| ask_now tr i v : asking (tr ++ [(RCheck i v, SMore)]) i v
| ask_before tr e x i v : asking tr i v -> e <> RLock i v -> asking (tr ++ [(e, x)]) i v.
(** the last thread noted in [v] *)
Inductive placed : list (sev * sans) -> nat -> nat -> Prop :=
| place_now tr x i v : placed (tr ++ [(RSet i v, x)]) v i
| place_before tr e x i v : placed tr v i -> (forall j, e <> RSet j v) -> placed (tr ++ [(e, x)]) v i.
