(** A concrete run for the examples beside the theorems on the life of proxies: no claims here. *)
From Verif Require Import Py ObjTableModel ObjTableSpec SerModel SerSpec FrameModel ServerModel ClientModel
  ApiModel ApiSpec RpcModel RpcSpec WireSpec LifeSpec SerProps RpcDemo.

Definition existing_b (st : sst) (v : pyval) : bool :=
  forallb (fun o => dmem (addrs (hp (ss_o st))) o && match dget (ss_boxes st) o with None => true | Some _ => false end) (mentions v).
Fixpoint results_exist_b (V : venv) (cap : nat) (y : sys) (ls : list label) : bool :=
  match ls with
  | [] => true
  | l :: r =>
      forallb (fun e => match e with EvDone _ _ (Ok v) _ => existing_b (sv_st (y_sv y)) v | _ => true end)
        (skipn (List.length (y_log y)) (y_log (ystep V cap y l))) && results_exist_b V cap (ystep V cap y l) r
  end.
Lemma results_exist_check V cap ls : forall y, results_exist_b V cap y ls = true -> results_exist V cap y ls.
Proof.
  induction ls as [|l ls IH]; intros y H; cbn in *; [exact I|]. apply andb_prop in H. destruct H as [A B].
  split; [|auto]. intros c m v x J. rewrite forallb_forall in A. specialize (A _ J). cbn in A.
  intros o Io. unfold existing_b in A. rewrite forallb_forall in A. specialize (A _ Io).
  apply andb_prop in A. destruct A as [A1 A2]. split; [exact A1|]. destruct (dget _ _); [discriminate|reflexivity].
Qed.

(** Object 0 is fetched twice and the number 7 once by proxy; then the first proxy is deleted. *)
Definition life_ls : list label :=
  [SUser (UAlloc 100); SUser (UName "f" (VObj 0%nat)); SUser (UName "n" (VInt 7));
   Join "a" "msgpack" None st0; Join "b" "json" None st0;
   say "a" (rq_getitem "f") "auto" Sync; say "b" (rq_getitem "f") "auto" Sync;
   SRecv "a"; SRecv "b"; CRecv "a"; CRecv "b";
   say "b" (rq_getitem "n") "proxy" Sync; SRecv "b"; CRecv "b";
   say "a" (rq_delete p0) "auto" Sync; SRecv "a"; CRecv "a"].
Definition life_y : sys := yrun demo_V 100 (yinit demo_sv) life_ls.
Lemma life_joins : joins_supported (sv_sers demo_sv) life_ls.
Proof. repeat (constructor; [first [exact I|reflexivity]|]). constructor. Qed.
Lemma life_exist : results_exist demo_V 100 (yinit demo_sv) life_ls.
Proof. apply results_exist_check. vm_compute. reflexivity. Qed.

(** A server with two proxies for object 0; a client deletes the second. *)
Definition kept_ops : list oop := [Alloc 100; GetProxy 0%nat true; GetProxy 0%nat true].
Definition kept_tr : otrace := snd (orun ostate_init kept_ops).
Definition kept_sv : sv := mkSv "tcp://s" ["msgpack"; "json"] [] [] (mkSst (fst (orun ostate_init kept_ops)) []) false true true.
Definition kept_ls : list label :=
  [Join "a" "msgpack" None st0; say "a" (rq_delete (mkP "tcp://s" 0 1 "<class 'thing'>" [])) "auto" Sync; SRecv "a"; CRecv "a"].
