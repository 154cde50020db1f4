(** Proofs about the process helpers. *)
From Verif Require Import Py UtilModel UtilSpec.
Local Open Scope Z_scope.

Lemma app_assoc_s a b c : ((a ++ b) ++ c)%string = (a ++ (b ++ c))%string.
Proof. induction a; cbn; congruence. Qed.

Lemma starts_spec p s : starts p s = true <-> exists b, s = (p ++ b)%string.
Proof.
  revert s. induction p as [|a p IH]; intros s; cbn.
  - split; eauto.
  - destruct s as [|c s]. { split; [discriminate|intros (b & H); discriminate]. }
    rewrite andb_true_iff, Ascii.eqb_eq, IH. split.
    + intros [-> (b & ->)]. eauto.
    + intros (b & [= -> ->]). eauto.
Qed.
Lemma contains_spec sub s : contains sub s = true <-> occurs sub s.
Proof.
  unfold occurs. induction s as [|c s IH].
  - cbn. rewrite orb_false_r, starts_spec. split.
    + intros (b & H). exists EmptyString, b. exact H.
    + intros (a & b & H). destruct a; [exists b; exact H|discriminate].
  - cbn [contains]. rewrite orb_true_iff, IH, starts_spec. split.
    + intros [(b & H)|(a & b & H)]; [exists EmptyString, b; exact H|]. exists (String c a), b. cbn. congruence.
    + intros (a & b & H). destruct a as [|d a]; [left; exists b; exact H|]. injection H as -> H. right. eauto.
Qed.

Lemma lstrip_blanks k s : lstrip (blanks k s) = lstrip s.
Proof. induction k; cbn; auto. Qed.

(** decimal digits *)
Fixpoint all_digits (s : string) : Prop :=
  match s with EmptyString => True | String c r => digit c <> None /\ all_digits r end.
Lemma digit_ok d : 0 <= d <= 9 -> digit (ascii_of_nat (48 + Z.to_nat d)) = Some d.
Proof.
  intros H. assert (E : d = 0 \/ d = 1 \/ d = 2 \/ d = 3 \/ d = 4 \/ d = 5 \/ d = 6 \/ d = 7 \/ d = 8 \/ d = 9) by lia.
  repeat (destruct E as [->|E]; [reflexivity|]). subst. reflexivity.
Qed.
Lemma dec_digits f n acc : 0 <= n -> all_digits acc -> all_digits (dec f n acc).
Proof.
  revert n acc. induction f as [|f IH]; intros n acc N A; cbn [dec]; auto.
  assert (D : all_digits (String (ascii_of_nat (48 + Z.to_nat (n mod 10))) acc)).
  { cbn [all_digits]. split; auto. rewrite digit_ok; [discriminate|]. pose proof (Z.mod_pos_bound n 10). lia. }
  destruct (n <? 10); auto. apply IH; auto. apply Z.div_pos; lia.
Qed.
Lemma dec_value f n acc : 0 <= n -> (Z.to_nat n < f)%nat ->
  forall k, digits k (dec f n acc) = digits (k * 10 ^ Z.of_nat (String.length (dec f n EmptyString)) + n) acc.
Proof.
  revert n acc. induction f as [|f IH]; intros n acc N F k; [lia|].
  cbn [dec]. pose proof (Z.mod_pos_bound n 10 ltac:(lia)).
  destruct (Z.ltb_spec n 10).
  - cbn [digits String.length]. rewrite digit_ok by lia. f_equal. rewrite Z.mod_small by lia. change (10 ^ Z.of_nat 1) with 10. lia.
  - rewrite IH; [|apply Z.div_pos; lia|].
    2:{ pose proof (Z.div_lt n 10 ltac:(lia) ltac:(lia)). lia. }
    cbn [digits]. rewrite digit_ok by lia. f_equal.
    assert (L : forall f n acc, String.length (dec f n acc) = (String.length (dec f n EmptyString) + String.length acc)%nat).
    { clear. induction f as [|f IH]; intros n acc; cbn [dec]; auto. destruct (n <? 10); auto.
      rewrite IH, (IH _ (String _ EmptyString)). cbn [String.length]. lia. }
    rewrite (L f (n / 10) (String _ EmptyString)). cbn [String.length].
    rewrite Nat2Z.inj_add, Z.pow_add_r by lia. change (10 ^ Z.of_nat 1) with 10.
    pose proof (Z.div_mod n 10 ltac:(lia)). lia.
Qed.
Lemma dec_nonempty f n acc : dec (S f) n acc <> EmptyString.
Proof.
  revert n acc. induction f as [|f IH]; intros n acc; cbn [dec].
  - destruct (n <? 10); discriminate.
  - destruct (n <? 10); [discriminate|]. apply (IH (n / 10)).
Qed.
Lemma to_int_decimal n : 0 <= n -> to_int (decimal n) = Ok n.
Proof.
  intros N. unfold to_int, decimal. pose proof (dec_nonempty (Z.to_nat n) n EmptyString).
  pose proof (dec_value (S (Z.to_nat n)) n EmptyString N ltac:(lia) 0) as V. cbn [digits] in V. rewrite Z.mul_0_l in V.
  destruct (dec (S (Z.to_nat n)) n EmptyString); [congruence|]. rewrite V. reflexivity.
Qed.
Lemma decimal_digits n : 0 <= n -> all_digits (decimal n).
Proof. intros N. apply dec_digits; auto. exact I. Qed.

Lemma lstrip_digits s r : all_digits s -> s <> EmptyString -> lstrip (s ++ r)%string = (s ++ r)%string.
Proof.
  destruct s as [|c s]; [congruence|]. intros [D _] _. cbn.
  destruct c as [[] [] [] [] [] [] [] []]; auto. exfalso. apply D. reflexivity.
Qed.
Lemma partition_digits s r : all_digits s -> partition (s ++ String " " r)%string = (s, r).
Proof.
  induction s as [|c s IH]; intros A; cbn; auto. destruct A as [D A]. rewrite (IH A).
  destruct c as [[] [] [] [] [] [] [] []]; auto. exfalso. apply D. reflexivity.
Qed.
Lemma ps_line_parts p : 0 <= p_pid p -> partition (lstrip (ps_line p)) = (decimal (p_pid p), p_cmd p).
Proof.
  intros N. unfold ps_line. rewrite lstrip_blanks, lstrip_digits, partition_digits by (auto using decimal_digits; apply dec_nonempty).
  reflexivity.
Qed.

Lemma find_lines search l : Forall (fun p => 0 <= p_pid p) l -> search <> EmptyString ->
  find_procs search (map ps_line l ++ [EmptyString]) =
  Ok (map (fun p => (p_pid p, ps_line p)) (filter (fun p => contains search (p_cmd p)) l)).
Proof.
  intros F N. induction F as [|p l Hp F IH]; cbn [map app find_procs].
  - cbn. destruct search; [congruence|]. reflexivity.
  - rewrite ps_line_parts by auto. cbn [filter]. destruct (contains search (p_cmd p)); [|exact IH].
    rewrite to_int_decimal by auto. cbn [bind]. rewrite IH. reflexivity.
Qed.
Lemma find_output k search l : Forall (fun p => 0 <= p_pid p) l ->
  find_procs search (ps_output k l) =
  if contains search "COMMAND" then Err ValueError
  else Ok (map (fun p => (p_pid p, ps_line p)) (filter (fun p => contains search (p_cmd p)) l)).
Proof.
  intros F. unfold ps_output. cbn [find_procs]. rewrite lstrip_blanks.
  change (partition (lstrip "PID COMMAND")) with ("PID", "COMMAND"). cbv iota beta.
  destruct (contains search "COMMAND") eqn:E; [reflexivity|]. apply find_lines; auto. intros ->. discriminate.
Qed.

(** ** killing *)
Lemma kill_pid_other ps pid q : NoDup (dkeys ps) -> q <> pid -> dget (fst (kill_pid ps pid)) q = dget ps q.
Proof.
  intros N E. unfold kill_pid. destruct (dget ps pid) as [[]|]; auto. cbn. apply dget_ddel_other. congruence.
Qed.
Lemma assert_one ps pid :
  assert_pid_dead ps pid =
  match dget ps pid with Some true => (ddel ps pid, Err AssertionError) | _ => (ps, Ok tt) end.
Proof. unfold assert_pid_dead, assert_pids_dead. cbn. unfold kill_pid. destruct (dget ps pid) as [[]|]; reflexivity. Qed.

Lemma clean_unchanged l ps q : NoDup (dkeys ps) -> ~ In q (map snd l) -> dget (fst (clean ps l)) q = dget ps q.
Proof.
  revert ps. induction l as [|[nm pid] l IH]; intros ps N I; cbn [clean]; auto.
  rewrite assert_one. cbn in I.
  destruct (dget ps pid) as [[]|] eqn:G.
  - specialize (IH (ddel ps pid)). destruct (clean (ddel ps pid) l) as [ps' f]. cbn in *.
    rewrite IH; [apply dget_ddel_other; tauto|apply NoDup_ddel, N|tauto].
  - apply IH; tauto.
  - apply IH; tauto.
Qed.
Lemma clean_NoDup l ps : NoDup (dkeys ps) -> NoDup (dkeys (fst (clean ps l))).
Proof.
  revert ps. induction l as [|[nm pid] l IH]; intros ps N; cbn [clean]; auto.
  rewrite assert_one. destruct (dget ps pid) as [[]|]; auto.
  specialize (IH (ddel ps pid) (NoDup_ddel _ _ N)). destruct (clean (ddel ps pid) l). exact IH.
Qed.
(** a process cannot come to life *)
Lemma clean_dead l ps q : NoDup (dkeys ps) -> dget ps q <> Some true -> dget (fst (clean ps l)) q = dget ps q.
Proof.
  revert ps. induction l as [|[nm pid] l IH]; intros ps N I; cbn [clean]; auto.
  rewrite assert_one.
  destruct (dget ps pid) as [[]|] eqn:G; auto.
  specialize (IH (ddel ps pid) (NoDup_ddel _ _ N)). destruct (clean (ddel ps pid) l) as [ps' f]. cbn in *.
  assert (q <> pid) by congruence. rewrite dget_ddel_other in IH by congruence. auto.
Qed.
Lemma clean_none_left l ps q : NoDup (dkeys ps) -> In q (map snd l) -> dget (fst (clean ps l)) q <> Some true.
Proof.
  revert ps. induction l as [|[nm pid] l IH]; intros ps N I; [destruct I|]. cbn in I. cbn [clean].
  rewrite assert_one. destruct (dget ps pid) as [[]|] eqn:G.
  - pose proof (clean_dead l (ddel ps pid) q (NoDup_ddel _ _ N)) as D. specialize (IH (ddel ps pid) (NoDup_ddel _ _ N)).
    destruct (clean (ddel ps pid) l) as [ps' f]. cbn in *.
    destruct I as [<-|I]; auto. rewrite dget_ddel_same in D by auto. rewrite D; discriminate.
  - destruct I as [<-|I]; auto. rewrite clean_dead; auto; congruence.
  - destruct I as [<-|I]; auto. rewrite clean_dead; auto; congruence.
Qed.
Definition is_ours (ps : procs) (x : string * Z) : bool := match dget ps (snd x) with Some true => true | _ => false end.
Lemma clean_names l ps : NoDup (dkeys ps) -> NoDup (map snd l) ->
  snd (clean ps l) = map fst (filter (is_ours ps) l).
Proof.
  revert ps. induction l as [|[nm pid] l IH]; intros ps N D; cbn [clean]; auto.
  inversion D as [|? ? Nin D']; subst. rewrite assert_one. cbn [filter]. unfold is_ours at 1. cbn [snd].
  destruct (dget ps pid) as [[]|] eqn:G; auto.
  specialize (IH (ddel ps pid) (NoDup_ddel _ _ N) D'). destruct (clean (ddel ps pid) l) as [ps' f]. cbn in *. f_equal.
  rewrite IH. f_equal. apply filter_ext_in. intros [n p] I. unfold is_ours. cbn.
  rewrite dget_ddel_other; auto. intros ->. apply Nin. apply (in_map snd) in I. exact I.
Qed.
Lemma clean_nonempty l ps : NoDup (dkeys ps) ->
  (snd (clean ps l) <> [] <-> exists x, In x l /\ dget ps (snd x) = Some true).
Proof.
  revert ps. induction l as [|[nm pid] l IH]; intros ps N; cbn [clean].
  - cbn. split; [congruence|]. intros (x & [] & _).
  - rewrite assert_one. destruct (dget ps pid) as [[]|] eqn:G.
    + destruct (clean (ddel ps pid) l) as [ps' f]. cbn. split; [|discriminate]. intros _. exists (nm, pid). auto.
    + rewrite IH by auto. split; intros (x & I & E); exists x; [split; [right; exact I|exact E]|].
      destruct I as [<-|I]; [cbn in E; congruence|auto].
    + rewrite IH by auto. split; intros (x & I & E); exists x; [split; [right; exact I|exact E]|].
      destruct I as [<-|I]; [cbn in E; congruence|auto].
Qed.

Lemma kill_each_only ps l q : NoDup (dkeys ps) -> dget (fst (kill_each ps l)) q <> dget ps q -> In q (map fst l).
Proof.
  revert ps. induction l as [|[pid ln] l IH]; intros ps N H; cbn [kill_each] in *; [exfalso; apply H; reflexivity|].
  destruct (Z.eq_dec pid q) as [->|E]; [left; reflexivity|]. right.
  pose proof (kill_pid_other ps pid q N ltac:(congruence)) as K.
  unfold kill_pid in *. destruct (dget ps pid) as [[]|]; cbn in *; try congruence.
  apply (IH (ddel ps pid)); [apply NoDup_ddel, N|]. congruence.
Qed.
Lemma kill_procs_only k1 k2 PREFIX search l1 l2 ps q :
  Forall (fun p => 0 <= p_pid p) l1 -> Forall (fun p => 0 <= p_pid p) l2 -> NoDup (dkeys ps) ->
  dget (fst (kill_procs PREFIX search (ps_output k1 l1) (ps_output k2 l2) ps)) q <> dget ps q ->
  exists p, In p l2 /\ p_pid p = q /\ occurs PREFIX (p_cmd p).
Proof.
  intros F1 F2 N. unfold kill_procs. rewrite !find_output by auto.
  destruct (contains PREFIX "COMMAND"); [cbn; congruence|].
  destruct (map _ (filter _ l1)) as [|y ys]; [cbn; congruence|].
  remember (map (fun p => (p_pid p, ps_line p)) (filter (fun p => contains PREFIX (p_cmd p)) l2)) as L eqn:E.
  destruct L as [|x L]; [cbn; congruence|]. intros H.
  assert (I : In q (map fst (x :: L))).
  { apply (kill_each_only ps); auto. destruct (kill_each ps (x :: L)) as [ps' [u|e]]; exact H. }
  rewrite E in I. rewrite map_map in I. apply in_map_iff in I. destruct I as (p & <- & I). apply filter_In in I.
  exists p. rewrite <- contains_spec. tauto.
Qed.

(** kill_each: all of them, or up to the first that cannot be killed *)
Lemma kill_each_all l : forall ps, NoDup (dkeys ps) -> NoDup (map fst l) -> (forall x, In x l -> ours ps (fst x)) ->
  snd (kill_each ps l) = Ok tt /\ forall x, In x l -> ~ alive (fst (kill_each ps l)) (fst x).
Proof.
  induction l as [|[pid ln] l IH]; intros ps N D O; cbn [kill_each]; [split; [reflexivity|intros x []]|].
  inversion D as [|? ? Nin D']; subst. pose proof (O _ (or_introl eq_refl)) as O1. cbn [fst] in O1. unfold ours in O1.
  unfold kill_pid. rewrite O1. specialize (IH (ddel ps pid) (NoDup_ddel _ _ N) D').
  destruct IH as [A B].
  { intros x I. unfold ours. rewrite dget_ddel_other; [apply O; right; exact I|]. intros ->. apply Nin, (in_map fst), I. }
  split; [exact A|]. intros x [<-|I]; [|auto]. cbn [fst]. unfold alive. intros H. apply H.
  destruct (dget (fst (kill_each (ddel ps pid) l)) pid) eqn:E; [|reflexivity]. exfalso.
  apply Nin. apply (kill_each_only (ddel ps pid)); [apply NoDup_ddel, N|]. rewrite E, dget_ddel_same by exact N. discriminate.
Qed.
Lemma kill_each_stops a p b : forall ps, NoDup (dkeys ps) -> NoDup (map fst (a ++ p :: b)) -> ~ ours ps (fst p) ->
  (forall x, In x a -> ours ps (fst x)) ->
  snd (kill_each ps (a ++ p :: b)) = Err OSError /\
  forall q, ~ In q (map fst a) -> dget (fst (kill_each ps (a ++ p :: b))) q = dget ps q.
Proof.
  induction a as [|[pid ln] a IH]; intros ps N D O A; cbn [kill_each app].
  - destruct p as [pid ln]. cbn [fst] in O. unfold kill_pid. unfold ours in O. destruct (dget ps pid) as [[|]|]; [congruence| |]; auto.
  - cbn [map app fst] in D. inversion D as [|? ? Nin D']; subst. pose proof (A _ (or_introl eq_refl)) as O1. cbn [fst] in O1. unfold ours in O1.
    unfold kill_pid. rewrite O1. destruct (IH (ddel ps pid) (NoDup_ddel _ _ N) D') as [B C].
    + unfold ours. rewrite dget_ddel_other; [exact O|]. intros E. apply Nin. rewrite map_app. apply in_or_app. right. left. congruence.
    + intros x I. unfold ours. rewrite dget_ddel_other; [apply A; right; exact I|]. intros E. apply Nin. rewrite map_app. apply in_or_app. left. rewrite E. apply in_map, I.
    + split; [exact B|]. intros q I. cbn [map fst In] in I. rewrite C by tauto. apply dget_ddel_other. intros ->. tauto.
Qed.
Definition hit (PREFIX : string) (p : process) : bool := contains PREFIX (p_cmd p).
Lemma hits_nodup P l : NoDup (map p_pid l) -> NoDup (map fst (map (fun p => (p_pid p, ps_line p)) (filter (hit P) l))).
Proof.
  rewrite map_map. cbn [fst]. induction l as [|p l IH]; cbn; intros H; [constructor|]. inversion H; subst.
  destruct (hit P p); cbn; auto. constructor; auto. intros I. apply H2. apply in_map_iff in I. destruct I as (x & E & I).
  apply filter_In in I. rewrite <- E. apply in_map, I.
Qed.
Lemma found_both k1 k2 PREFIX search l1 l2 ps p1 :
  Forall (fun p => 0 <= p_pid p) l1 -> Forall (fun p => 0 <= p_pid p) l2 -> ~ occurs PREFIX "COMMAND" ->
  In p1 l1 -> occurs PREFIX (p_cmd p1) ->
  kill_procs PREFIX search (ps_output k1 l1) (ps_output k2 l2) ps =
  let l := map (fun p => (p_pid p, ps_line p)) (filter (hit PREFIX) l2) in
  match kill_each ps l with (ps, Ok _) => (ps, Ok l) | (ps, Err e) => (ps, Err e) end.
Proof.
  intros F1 F2 N I1 O1. unfold kill_procs. rewrite !find_output by auto.
  destruct (contains PREFIX "COMMAND") eqn:E. { exfalso. apply N, contains_spec, E. }
  fold (hit PREFIX). destruct (filter (hit PREFIX) l1) as [|x r] eqn:E1.
  { exfalso. assert (In p1 []); [rewrite <- E1; apply filter_In; split; [exact I1|apply contains_spec, O1]|contradiction]. }
  cbn [map]. cbv zeta. destruct (filter (hit PREFIX) l2); reflexivity.
Qed.
Lemma kill_procs_all k1 k2 PREFIX search l1 l2 ps p1 :
  Forall (fun p => 0 <= p_pid p) l1 -> Forall (fun p => 0 <= p_pid p) l2 -> ~ occurs PREFIX "COMMAND" ->
  In p1 l1 -> occurs PREFIX (p_cmd p1) -> NoDup (dkeys ps) -> NoDup (map p_pid l2) ->
  (forall p, In p l2 -> occurs PREFIX (p_cmd p) -> ours ps (p_pid p)) ->
  exists ps' found, kill_procs PREFIX search (ps_output k1 l1) (ps_output k2 l2) ps = (ps', Ok (map (fun p => (p_pid p, ps_line p)) found)) /\
    (forall p, In p found <-> In p l2 /\ occurs PREFIX (p_cmd p)) /\
    forall p, In p l2 -> occurs PREFIX (p_cmd p) -> ~ alive ps' (p_pid p).
Proof.
  intros F1 F2 N I1 O1 K D A. rewrite (found_both _ _ _ _ _ _ _ p1) by auto. cbv zeta.
  destruct (kill_each_all (map (fun p => (p_pid p, ps_line p)) (filter (hit PREFIX) l2)) ps K (hits_nodup _ _ D)) as [B C].
  { intros x I. apply in_map_iff in I. destruct I as (p & <- & I). apply filter_In in I. destruct I as [I H]. apply A; [exact I|apply contains_spec, H]. }
  destruct (kill_each ps _) as [ps' r]. cbn [fst snd] in *. subst r. exists ps'. eexists. split; [reflexivity|]. split.
  - intros p. rewrite filter_In. unfold hit. rewrite contains_spec. reflexivity.
  - intros p I O. apply (C (p_pid p, ps_line p)). apply (in_map (fun p => (p_pid p, ps_line p))), filter_In. split; [exact I|apply contains_spec, O].
Qed.
Lemma kill_procs_stops k1 k2 PREFIX search l1 a p b ps p1 :
  Forall (fun p => 0 <= p_pid p) l1 -> Forall (fun p => 0 <= p_pid p) (a ++ p :: b) -> ~ occurs PREFIX "COMMAND" ->
  In p1 l1 -> occurs PREFIX (p_cmd p1) -> NoDup (dkeys ps) -> NoDup (map p_pid (a ++ p :: b)) ->
  (forall q, In q a -> occurs PREFIX (p_cmd q) -> ours ps (p_pid q)) -> occurs PREFIX (p_cmd p) -> ~ ours ps (p_pid p) ->
  exists ps', kill_procs PREFIX search (ps_output k1 l1) (ps_output k2 (a ++ p :: b)) ps = (ps', Err OSError) /\
    forall q, In q b -> dget ps' (p_pid q) = dget ps (p_pid q).
Proof.
  intros F1 F2 N I1 O1 K D A Op U. rewrite (found_both _ _ _ _ _ _ _ p1) by auto. cbv zeta.
  pose proof (hits_nodup PREFIX _ D) as D'. rewrite filter_app in *. cbn [filter] in *.
  assert (H : hit PREFIX p = true) by (apply contains_spec, Op). rewrite H in *. rewrite map_app in *. cbn [map] in *.
  edestruct (kill_each_stops (map (fun p => (p_pid p, ps_line p)) (filter (hit PREFIX) a)) (p_pid p, ps_line p)
    (map (fun p => (p_pid p, ps_line p)) (filter (hit PREFIX) b)) ps K D' U) as [B C].
  { intros x I. apply in_map_iff in I. destruct I as (q & <- & I). apply filter_In in I. destruct I as [I Hq]. apply A; [exact I|apply contains_spec, Hq]. }
  destruct (kill_each ps _) as [ps' r]. cbn [fst snd] in *. subst r. exists ps'. split; [reflexivity|]. intros q I. apply C.
  rewrite map_map. cbn [fst]. intros J. apply in_map_iff in J. destruct J as (x & E & J). apply filter_In in J. destruct J as [J _].
  clear - D I J E. revert D. induction a as [|y a IH]; [contradiction|]. cbn. intros D. inversion D; subst.
  destruct J as [->|J]; [|auto]. apply H1. apply in_or_app. right. right. rewrite E. apply in_map, I.
Qed.
(** assert_pids_dead *)
Lemma kill_all_spec l : forall ps killed, NoDup (dkeys ps) ->
  (forall q, In q l -> ~ ours (fst (kill_all ps l killed)) q) /\
  (forall q, ~ In q l -> dget (fst (kill_all ps l killed)) q = dget ps q) /\
  (forall q, dget ps q <> Some true -> dget (fst (kill_all ps l killed)) q = dget ps q) /\
  (snd (kill_all ps l killed) = [] <-> killed = [] /\ forall q, In q l -> ~ ours ps q).
Proof.
  induction l as [|pid l IH]; intros ps killed N; cbn [kill_all].
  - cbn. split; [tauto|]. split; [auto|]. split; [auto|]. split; [intros ->; split; [reflexivity|tauto]|tauto].
  - unfold kill_pid. destruct (dget ps pid) as [[|]|] eqn:E.
    + destruct (IH (ddel ps pid) (killed ++ [pid]) (NoDup_ddel _ _ N)) as (A & B & C & D). split; [|split; [|split]].
      * intros q [<-|I]; [|auto]. unfold ours. rewrite C; rewrite dget_ddel_same by exact N; discriminate.
      * intros q I. cbn in I. rewrite B by tauto. apply dget_ddel_other. intros ->. tauto.
      * intros q I. assert (q <> pid) by congruence. rewrite C; rewrite dget_ddel_other by congruence; auto.
      * rewrite D. split; [intros [K _]; destruct killed; discriminate|]. intros [_ K]. exfalso. apply (K pid); [left; reflexivity|exact E].
    + destruct (IH ps killed N) as (A & B & C & D). split; [|split; [|split]].
      * intros q [<-|I]; [|auto]. unfold ours. rewrite C; congruence.
      * intros q I. cbn in I. apply B. tauto.
      * exact C.
      * rewrite D. split; intros [K L]; (split; [exact K|]); [intros q [<-|I]; [unfold ours; congruence|auto]|intros q I; apply L; right; exact I].
    + destruct (IH ps killed N) as (A & B & C & D). split; [|split; [|split]].
      * intros q [<-|I]; [|auto]. unfold ours. rewrite C; congruence.
      * intros q I. cbn in I. apply B. tauto.
      * exact C.
      * rewrite D. split; intros [K L]; (split; [exact K|]); [intros q [<-|I]; [unfold ours; congruence|auto]|intros q I; apply L; right; exact I].
Qed.
Lemma assert_pids_dead_spec ps l : NoDup (dkeys ps) ->
  (forall q, In q l -> ~ ours (fst (assert_pids_dead ps l)) q) /\
  (forall q, ~ In q l -> dget (fst (assert_pids_dead ps l)) q = dget ps q) /\
  ((exists q, In q l /\ ours ps q) -> snd (assert_pids_dead ps l) = Err AssertionError) /\
  ((forall q, In q l -> ~ ours ps q) -> snd (assert_pids_dead ps l) = Ok tt).
Proof.
  intros N. unfold assert_pids_dead. destruct (kill_all_spec l ps [] N) as (A & B & C & D). destruct (kill_all ps l []) as [ps' k].
  cbn [fst snd] in *. split; [exact A|]. split; [exact B|]. split.
  - intros (q & I & O). destruct k; [|reflexivity]. exfalso. destruct D as [D _]. destruct (D eq_refl) as [_ K]. eapply K; eauto.
  - intros H. destruct D as [_ D]. rewrite D; auto.
Qed.
