(** A concrete world for the examples beside the theorems: no claims here. *)
From Verif Require Import Py ObjTableModel DateTimeModel NdArrayModel SerModel SerSpec FrameModel ServerModel ClientModel
  ApiModel RpcModel WireSpec RpcSpec SerProps.

(** user objects have an attribute "twin" that is the next object; one package *)
Definition twin_env : senv :=
  {| ser_ok := ser_ok demo_env; pickle_dumps := pickle_dumps demo_env; pickle_loads := pickle_loads demo_env;
     np_dtype := np_dtype demo_env; exec_dtype := exec_dtype demo_env; type_str := type_str demo_env;
     getattr_of := fun v a => match v with
       | VObj o => if String.eqb a "twin" then Ok (VObj (S o)) else Err AttributeError
       | _ => Err AttributeError end;
     float_repr := float_repr demo_env |}.
Lemma twin_good : good_env twin_env.
Proof. destruct demo_good as [A B]. split; [exact A|exact B]. Qed.
Definition demo_V : venv :=
  mkVenv twin_env 20 (fun _ => true)
    (fun name => if prefix "pkg" name then Ok (VObj 0%nat) else Err ImportError)
    (fun _ _ => Err AttributeError) (fun _ => "traceback").
Lemma demo_V_good : good_venv demo_V.
Proof. split; [exact twin_good|cbn; repeat constructor|reflexivity|reflexivity]. Qed.

Definition demo_sv : sv := mkSv "tcp://s" ["msgpack"; "json"] [] [] st0 false true true.
Lemma demo_fresh : fresh_server demo_sv.
Proof. repeat split. Qed.
Definition say (c : string) (r : request) (rt : string) (s : sync_mode) : label := CSend c (rq_action r) (rq_opts r) rt s.
Definition p0 : proxyrec := mkP "tcp://s" 0 0 "<class 'thing'>" [].
(** Two clients; an object is published, fetched as a proxy, called with itself
    and a nested value, while the other client reads and writes a name. *)
Definition demo_run : list label :=
  [SUser (UAlloc 100); SUser (UAlloc 108); SUser (UName "f" (VObj 0%nat));
   Join "a" "msgpack" None st0; Join "b" "json" None st0;
   say "a" (rq_getitem "f") "auto" Sync; say "b" (rq_setitem "x" (VInt 5)) "auto" Async;
   SRecv "b"; SRecv "a"; CRecv "a";
   say "a" (rq_proxy_call p0 [VProxy p0; VTuple [VInt 1]] [("k", VNone)]) "auto" Sync;
   say "b" (rq_getitem "x") "auto" Async; say "b" (rq_getitem "nothing") "auto" Async; say "b" rq_ping "auto" Off;
   SRecv "a"; SRecv "b"; SReturn (Ok (VInt 7)); SRecv "b"; SRecv "b";
   CRecv "b"; CRecv "a"; CRecv "b"; CRecv "b"].
Definition demo_y : sys := yrun demo_V 100 (yinit demo_sv) demo_run.
Lemma demo_joins : joins_supported (sv_sers demo_sv) demo_run.
Proof. repeat (constructor; [first [exact I|reflexivity]|]). constructor. Qed.

Lemma no_traffic {A} (d : dict string (list A)) : forallb (fun e => match snd e with [] => true | _ => false end) d = true ->
  forall c, queue d c = [].
Proof.
  intros H c. unfold queue. induction d as [|[k q] r IH]; [reflexivity|]. cbn in *.
  destruct q; [|discriminate]. match goal with |- context [if ?b then _ else _] => destruct b end; [reflexivity|apply IH; exact H].
Qed.
Lemma quiet y : (forallb (fun e => match snd e with [] => true | _ => false end) (y_up y) &&
  forallb (fun e => match snd e with [] => true | _ => false end) (y_down y) &&
  match y_stack y with [] => true | _ => false end)%bool = true -> quiescent y.
Proof.
  intro H. apply andb_prop in H. destruct H as [H S]. apply andb_prop in H. destruct H as [U D].
  split; [|split]; [apply no_traffic; exact U|apply no_traffic; exact D|destruct (y_stack y); [reflexivity|discriminate]].
Qed.
