(** Lemmas about the address of the log server. *)
From Verif Require Import Py SetAddrModel SetAddrSpec.
Local Open Scope nat_scope.

Lemma lrun_app st a b : lrun st (a ++ b)%list = lrun (lrun st a) b.
Proof. apply fold_left_app. Qed.
Lemma put_len l i s : List.length (put l i s) = List.length l.
Proof. revert i. induction l; intros [|i]; cbn; auto. Qed.

(** the address *)
Lemma addr_log st r : l_addr (log st r) = l_addr st /\ l_server (log st r) = l_server st.
Proof. split; reflexivity. Qed.
Lemma addr_step st o : l_addr (lstep st o) = match o with OSet (Good n) => Some n | _ => l_addr st end.
Proof.
  destruct o as [n|[n|]|r]; cbn; try reflexivity.
  - unfold start_log_server. destruct (l_server st); reflexivity.
  - unfold set_logger_address. destruct (l_sender st); reflexivity.
  - unfold set_logger_address. destruct (l_sender st); reflexivity.
Qed.
Lemma server_step st o : l_server (lstep st o) = match l_server st, o with Some n, _ => Some n | None, OStart n => Some n | _, _ => None end.
Proof.
  destruct o as [n|[n|]|r]; cbn; try (destruct (l_server st) eqn:E; reflexivity).
  - unfold start_log_server. destruct (l_server st) eqn:E; cbn; auto.
  - unfold set_logger_address. destruct (l_sender st); cbn; destruct (l_server st); reflexivity.
  - unfold set_logger_address. destruct (l_sender st); cbn; destruct (l_server st); reflexivity.
Qed.
Lemma addr_keep r : forall st, (forall m, ~ In (OSet (Good m)) r) -> l_addr (lrun st r) = l_addr st.
Proof.
  induction r as [|o r IH]; intros st H; [reflexivity|]. cbn. fold (lrun (lstep st o) r). rewrite IH by (intros m I; apply (H m); right; exact I).
  rewrite addr_step. destruct o as [n|[n|]|x]; try reflexivity. exfalso. apply (H n). now left.
Qed.
Lemma last_addr os n st : last_set os n -> l_addr (lrun st os) = Some n.
Proof. intros (l & r & -> & H). rewrite lrun_app. change (l_addr (lrun (lstep (lrun st l) (OSet (Good n))) r) = Some n). rewrite addr_keep by exact H. rewrite addr_step. reflexivity. Qed.
Lemma never_addr os : never_set os -> l_addr (lrun logst0 os) = None.
Proof. intro H. rewrite addr_keep by exact H. reflexivity. Qed.
Lemma server_keep r n : forall st, l_server st = Some n -> l_server (lrun st r) = Some n.
Proof. induction r as [|o r IH]; intros st H; [exact H|]. cbn. apply IH. rewrite server_step, H. reflexivity. Qed.
Lemma server_none r : forall st, l_server st = None -> no_server r -> l_server (lrun st r) = None.
Proof.
  induction r as [|o r IH]; intros st H N; [exact H|]. cbn. apply IH; [|intros k I; apply (N k); right; exact I].
  rewrite server_step, H. destruct o as [k|?|?]; try reflexivity. exfalso. apply (N k). now left.
Qed.
Lemma own_address l n r : no_server l -> get_logger_address (lrun logst0 (l ++ OStart n :: r)%list) = Some n.
Proof.
  intro H. unfold get_logger_address. rewrite lrun_app. change (lrun (lrun logst0 l) (OStart n :: r)) with (lrun (lstep (lrun logst0 l) (OStart n)) r).
  rewrite (server_keep r n); [reflexivity|]. rewrite server_step, (server_none l logst0 eq_refl H). reflexivity.
Qed.
Lemma set_address os n : no_server os -> last_set os n -> get_logger_address (lrun logst0 os) = Some n.
Proof. intros H L. unfold get_logger_address. rewrite (server_none os logst0 eq_refl H). now apply last_addr. Qed.
Lemma no_address os : no_server os -> never_set os -> get_logger_address (lrun logst0 os) = None.
Proof. intros H L. unfold get_logger_address. rewrite (server_none os logst0 eq_refl H). now apply never_addr. Qed.

(** without failures there is one sender at most, connected to the address *)
Definition fine (st : logst) : Prop :=
  match l_addr st with
  | None => l_sender st = None /\ l_all st = []
  | Some n => l_sender st = Some 0 /\ l_all st = [mkSn (Some (Some n)) false []]
  end.
Lemma fine_step st o : fine st -> o <> OSet Bad -> fine (lstep st o).
Proof.
  intros F N. unfold fine in *. rewrite addr_step. destruct o as [n|[n|]|r]; [| |congruence|]; cbn [lstep].
  - unfold start_log_server. destruct (l_server st); exact F.
  - unfold set_logger_address. destruct (l_addr st); destruct F as (-> & ->); split; reflexivity.
  - cbn [log l_sender l_all]. destruct (l_addr st); destruct F as (-> & ->); split; reflexivity.
Qed.
Lemma fine_run os : forall st, fine st -> no_failure os -> fine (lrun st os).
Proof.
  induction os as [|o os IH]; intros st F N; [exact F|]. cbn. apply IH; [apply fine_step; [exact F|]|]; intro X.
  - apply N. left. exact X.
  - apply N. right. exact X.
Qed.
Lemma fine0 : fine logst0.
Proof. split; reflexivity. Qed.
Lemma goes_to_last os n r : no_failure os -> last_set os n ->
  l_sent (lrun logst0 (os ++ [OLog r])%list) = (l_sent (lrun logst0 os) ++ [(n, r)])%list /\ kept (lrun logst0 (os ++ [OLog r])%list) = [].
Proof.
  intros N L. rewrite lrun_app. cbn. pose proof (fine_run os _ fine0 N) as F. unfold fine in F. rewrite (last_addr os n _ L) in F. destruct F as (_ & ->).
  split; reflexivity.
Qed.
Lemma not_sent os r : no_failure os -> never_set os -> l_sent (lrun logst0 (os ++ [OLog r])%list) = l_sent (lrun logst0 os).
Proof.
  intros N L. rewrite lrun_app. cbn. pose proof (fine_run os _ fine0 N) as F. unfold fine in F. rewrite (never_addr os L) in F. destruct F as (_ & ->).
  apply app_nil_r.
Qed.

(** a failure after a success *)
Lemma log_lost srv se a h k sent r :
  log (mkL srv se a [mkSn (Some None) h k] sent) r = mkL srv se a [mkSn (Some None) true (k ++ [r])] sent.
Proof. unfold log, handle. cbn. destruct h; cbn; rewrite app_nil_r; reflexivity. Qed.
Lemma logs_lost rs : forall srv se a h k sent,
  let st := lrun (mkL srv se a [mkSn (Some None) h k] sent) (map OLog rs) in
  l_sent st = sent /\ l_addr st = a /\ l_server st = srv.
Proof.
  induction rs as [|r rs IH]; intros; [repeat split|]. subst st. cbn [map lrun fold_left lstep]. rewrite log_lost. apply IH.
Qed.
Lemma failed_set st n : l_sender st = Some 0 -> l_all st = [mkSn (Some (Some n)) false []] ->
  lstep st (OSet Bad) = mkL (l_server st) (Some 0) (l_addr st) [mkSn (Some None) false []] (l_sent st).
Proof. intros A B. cbn [lstep]. unfold set_logger_address. rewrite A, B. reflexivity. Qed.
Lemma lost os n rs : no_failure os -> no_server os -> last_set os n ->
  let st := lrun logst0 (os ++ OSet Bad :: map OLog rs)%list in
  get_logger_address st = Some n /\ l_sent st = l_sent (lrun logst0 os).
Proof.
  intros N S L st. subst st. rewrite lrun_app. pose proof (fine_run os _ fine0 N) as F. unfold fine in F. rewrite (last_addr os n _ L) in F. destruct F as (A & B).
  change (lrun (lrun logst0 os) (OSet Bad :: map OLog rs)) with (lrun (lstep (lrun logst0 os) (OSet Bad)) (map OLog rs)).
  rewrite (failed_set _ n A B).
  destruct (logs_lost rs (l_server (lrun logst0 os)) (Some 0) (l_addr (lrun logst0 os)) false [] (l_sent (lrun logst0 os))) as (X & Y & Z).
  split; [|exact X]. unfold get_logger_address. rewrite Z, Y, (server_none os logst0 eq_refl S). now apply last_addr.
Qed.

(** failures before the first success *)
Definition orphan (l : list nat) (started : bool) : sender := mkSn (Some None) started l.
Lemma fails_first k : forall st, l_sender st = None ->
  lrun st (repeat (OSet Bad) k) = mkL (l_server st) None (l_addr st) (l_all st ++ repeat (orphan [] false) k) (l_sent st).
Proof.
  induction k as [|k IH]; intros st E.
  - cbn. rewrite app_nil_r. destruct st; cbn in *; subst; reflexivity.
  - cbn [repeat lrun fold_left]. fold (lrun (lstep st (OSet Bad)) (repeat (OSet Bad) k)). rewrite IH.
    + cbn [lstep]. unfold set_logger_address. rewrite E. cbn. rewrite <- app_assoc. reflexivity.
    + cbn [lstep]. unfold set_logger_address. rewrite E. reflexivity.
Qed.
Lemma handle_orphans r l b k : map (fun s => handle s r) (repeat (orphan l b) k) = repeat (orphan (l ++ [r]) true, []) k.
Proof. induction k; cbn; [reflexivity|]. rewrite IHk. unfold orphan, handle. cbn. destruct b; reflexivity. Qed.
Lemma map_rep {A B} (f : A -> B) x k : map f (repeat x k) = repeat (f x) k.
Proof. induction k; cbn; congruence. Qed.
Lemma concat_nils {A} k : List.concat (repeat (@nil A) k) = [].
Proof. induction k; cbn; auto. Qed.
Lemma logs_kept n k rs : forall srv se a l b sent,
  let st := lrun (mkL srv se a (repeat (orphan l b) k ++ [mkSn (Some (Some n)) false []]) sent) (map OLog rs) in
  l_sent st = (sent ++ map (fun r => (n, r)) rs)%list /\ List.length (kept st) = k * (List.length l + List.length rs).
Proof.
  induction rs as [|r rs IH]; intros.
  - subst st. cbn. rewrite app_nil_r. split; [reflexivity|]. unfold kept. cbn [l_all]. rewrite flat_map_app. cbn. rewrite app_nil_r, Nat.add_0_r.
    induction k; cbn; [reflexivity|]. rewrite app_length, IHk. reflexivity.
  - subst st. cbn [map lrun fold_left lstep].
    replace (log _ r) with (mkL srv se a (repeat (orphan (l ++ [r]) true) k ++ [mkSn (Some (Some n)) false []]) (sent ++ [(n, r)])).
    + destruct (IH srv se a (l ++ [r])%list true (sent ++ [(n, r)])%list) as (X & Y). unfold lrun in X, Y. split.
      * rewrite X, <- app_assoc. reflexivity.
      * rewrite Y, app_length. cbn [List.length]. f_equal. lia.
    + unfold log. cbn [l_server l_sender l_addr l_all l_sent]. rewrite !map_app, handle_orphans, concat_app, !map_rep. cbn [fst snd]. rewrite concat_nils. reflexivity.
Qed.
Lemma keeps_all k n rs :
  let st := lrun logst0 (repeat (OSet Bad) k ++ OSet (Good n) :: map OLog rs)%list in
  l_sent st = map (fun r => (n, r)) rs /\ List.length (kept st) = k * List.length rs.
Proof.
  intro st. subst st. rewrite lrun_app, (fails_first k logst0 eq_refl). cbn [lrun fold_left lstep]. unfold set_logger_address. cbn [l_sender connect fresh fst snd l_server l_addr l_all l_sent logst0 app].
  destruct (logs_kept n k rs None (Some (List.length (repeat (orphan [] false) k))) (Some n) [] false []) as (X & Y).
  unfold lrun in X, Y. split; [exact X|exact Y].
Qed.
