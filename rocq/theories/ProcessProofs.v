(** Proofs about starting a process. *)
From Verif Require Import Py UtilModel UtilSpec UtilProofs ProcessModel ProcessSpec.
Local Open Scope Z_scope.

Lemma parse_optional_arg s : no_dash s -> parse_optional s = Some CArg.
Proof.
  intros N. destruct s as [|c r]; [reflexivity|].
  assert (C : c <> "-"%char) by (intros ->; exact (N r eq_refl)).
  destruct c as [[] [] [] [] [] [] [] []]; try reflexivity. exfalso. apply C. reflexivity.
Qed.
Lemma no_dash_neq s : no_dash s -> String.eqb s "--" = false.
Proof. intros N. apply String.eqb_neq. intros ->. exact (N _ eq_refl). Qed.

Lemma p_logaddr a : parse_optional ("--logaddr=" ++ a) = Some (COpt (Some "logaddr") (Some a)). Proof. reflexivity. Qed.
Lemma p_loglevel a : parse_optional ("--loglevel=" ++ a) = Some (COpt (Some "loglevel") (Some a)). Proof. reflexivity. Qed.
Lemma p_listen a : parse_optional ("--listen_addr=" ++ a) = Some (COpt (Some "listen_addr") (Some a)). Proof. reflexivity. Qed.
Lemma p_boot a : parse_optional ("--bootstrap_addr=" ++ a) = Some (COpt (Some "bootstrap_addr") (Some a)). Proof. reflexivity. Qed.
Lemma p_prefix_ a : parse_optional ("--child_name_prefix=" ++ a) = Some (COpt (Some "child_name_prefix") (Some a)). Proof. reflexivity. Qed.

(** what the parser makes of the command line *)
Definition parsed (name : string) (qt daemon : bool) (log : option (string * string)) (listen boot prefix : string) : conf :=
  [("procname", VStr name); ("listen_addr", VStr listen); ("daemon", VBool daemon); ("qt", VBool qt);
   ("verbose", VBool false); ("logaddr", match log with Some (a, _) => VStr a | None => VNone end);
   ("loglevel", VStr match log with Some (_, l) => l | None => "INFO" end); ("bootstrap_addr", VStr boot); ("child_name_prefix", VStr prefix)].
Lemma parse_cmdline name (qt daemon : bool) log listen boot prefix : no_dash name ->
  parse_args ([name] ++ (if qt then ["--qt"] else []) ++ (if daemon then ["--daemon"] else []) ++
    match log with Some (a, l) => [("--logaddr=" ++ a)%string; ("--loglevel=" ++ l)%string] | None => [] end ++
    [("--listen_addr=" ++ listen)%string; ("--bootstrap_addr=" ++ boot)%string] ++
    (if String.eqb prefix "" then [] else [("--child_name_prefix=" ++ prefix)%string])) =
  Some (parsed name qt daemon log listen boot prefix).
Proof.
  intros N. unfold parse_args. cbn [app classify]. rewrite (no_dash_neq _ N), (parse_optional_arg _ N).
  destruct (String.eqb_spec prefix "") as [->|P]; destruct qt, daemon, log as [[a l]|]; reflexivity.
Qed.

Lemma all_digits_spec s : forall acc n, digits acc s = Some n -> all_digits s = true.
Proof.
  induction s as [|c s IH]; intros acc n; cbn; auto. destruct (digit c); [|discriminate]. apply IH.
Qed.
Lemma to_int_isdigit s n : to_int s = Ok n -> isdigit s = true.
Proof.
  unfold to_int, isdigit. destruct s as [|c s]; [discriminate|]. destruct (digits 0 (String c s)) eqn:E; [|discriminate].
  intros _. eapply all_digits_spec. exact E.
Qed.
Lemma configure_parsed name qt daemon log listen boot prefix n :
  match log with Some (_, l) => l = decimal n /\ 0 <= n | None => n = 20 end ->
  exists c, configure (parsed name qt daemon log listen boot prefix) = Ok c /\
  got c (mkAsk name qt daemon match log with Some (a, _) => VStr a | None => VNone end n listen boot prefix) /\
  dget c "class_name" = Some (VStr (if qt then "QtRPCServer" else "RPCServer")) /\ dget c "args" = None /\ dkeys c =
   ["procname"; "listen_addr"; "daemon"; "qt"; "verbose"; "logaddr"; "loglevel"; "bootstrap_addr"; "child_name_prefix"; "class_name"].
Proof.
  intros L. destruct log as [[a l]|].
  - destruct L as [-> G]. assert (T : to_int (decimal n) = Ok n) by (apply to_int_decimal; exact G).
    unfold configure, parsed. cbn [dget eqb Eqb_string String.eqb Ascii.eqb Bool.eqb dset truthy].
    cbn -[decimal isdigit to_int]. rewrite (to_int_isdigit _ _ T), T. cbn [bind].
    eexists. split; [reflexivity|]. destruct qt; repeat split.
  - subst n. unfold configure, parsed. cbn. eexists. split; [reflexivity|]. destruct qt; repeat split.
Qed.

Lemma str_int_nonneg n : 0 <= n -> str_int n = decimal n.
Proof. intros H. unfold str_int. destruct (Z.ltb_spec n 0); [lia|reflexivity]. Qed.

Lemma asks_name_of p q name : asks_name p q name -> name_of p q = name.
Proof. unfold name_of. intros [(n & -> & ->)|(-> & ->)]; reflexivity. Qed.
Lemma asks_log_of p q a : asks_log p q a -> log_addr_of p q = a.
Proof. unfold log_addr_of. intros [(t & -> & ->)|[(-> & -> & ->)|(-> & -> & ->)]]; reflexivity. Qed.
Lemma upper_spells s w : spells s w -> upper s = upper w.
Proof.
  induction 1 as [|c s w H IH|k s w K H IH]; [reflexivity| |]; cbn [upper]; rewrite IH; [reflexivity|f_equal].
  assert (E : upper_ascii (ascii_of_nat (k + 32)) = upper_ascii (ascii_of_nat k)); [|exact E].
  do 65 (destruct k as [|k]; [lia|]). do 26 (destruct k as [|k]; [reflexivity|]). lia.
Qed.
Lemma asks_level_of p q n : asks_level p q n -> level_of p q = Ok n.
Proof.
  unfold asks_level, level_of. destruct (q_log_level q) as [|k|s]; [intros ->; reflexivity..|].
  intros (w & S & I). unfold get_level. rewrite (upper_spells _ _ S).
  cbn [In] in I. repeat (destruct I as [[= <- <-]|I]; [reflexivity|]). destruct I.
Qed.
Definition readable_m (p : parent) (q : request) (n : Z) : Prop :=
  no_dash (name_of p q) /\ sendable (log_addr_of p q) /\ level_of p q = Ok n /\ 0 <= n.
Lemma readable_is p q name log n : readable p q name log n -> readable_m p q n /\ name_of p q = name /\ log_addr_of p q = log.
Proof.
  intros (A & N & B & S & L & G). apply asks_name_of in A. apply asks_log_of in B. apply asks_level_of in L.
  unfold readable_m. rewrite A, B. auto 10.
Qed.

Lemma readable_conf p q boot n : readable_m p q n ->
  exists args c0 c, bootstrap_args p q boot = Ok args /\ parse_args args = Some c0 /\ configure c0 = Ok c /\
  got c (mkAsk (name_of p q) (q_qt q) (q_daemon q) (log_text (log_addr_of p q))
         (match log_addr_of p q with None => 20 | Some _ => n end) (format_text (q_address q)) boot (p_prefix p)) /\
  dget c "class_name" = Some (VStr (if q_qt q then "QtRPCServer" else "RPCServer")) /\ dget c "args" = None /\ dkeys c =
   ["procname"; "listen_addr"; "daemon"; "qt"; "verbose"; "logaddr"; "loglevel"; "bootstrap_addr"; "child_name_prefix"; "class_name"].
Proof.
  intros (N & S & L & G). unfold bootstrap_args. rewrite L. cbn [bind]. destruct S as [S|(b & S)]; rewrite S; cbn [bind decode log_text].
  - pose proof (parse_cmdline (name_of p q) (q_qt q) (q_daemon q) None (format_text (q_address q)) boot (p_prefix p) N) as P.
    destruct (configure_parsed (name_of p q) (q_qt q) (q_daemon q) None (format_text (q_address q)) boot (p_prefix p) 20 eq_refl) as (c & C & R).
    eexists _, _, c. split; [reflexivity|]. split; [exact P|]. split; [exact C|exact R].
  - pose proof (parse_cmdline (name_of p q) (q_qt q) (q_daemon q) (Some (b, str_int n)) (format_text (q_address q)) boot (p_prefix p) N) as P.
    destruct (configure_parsed (name_of p q) (q_qt q) (q_daemon q) (Some (b, str_int n)) (format_text (q_address q)) boot (p_prefix p) n) as (c & C & R).
    { split; [apply str_int_nonneg, G|exact G]. }
    eexists _, _, c. split; [reflexivity|]. split; [exact P|]. split; [exact C|exact R].
Qed.

Lemma dmem_keys {V} (c : dict string V) k : In k (dkeys c) -> dmem c k = true.
Proof.
  unfold dmem, dkeys. induction c as [|[k' v] c IH]; cbn [map In dget fst]; [intros []|].
  destruct (eqb_reflect k k') as [->|N]; auto. intros [E|I]; [congruence|auto].
Qed.
Lemma run_child_readable p q boot n qt_ok server : readable_m p q n ->
  exists args, bootstrap_args p q boot = Ok args /\
  run_child args qt_ok server =
    if q_qt q && negb qt_ok then (None, false)
    else match server (format_text (q_address q)) with Ok a => (Some (SAddress a), true) | Err _ => (None, false) end.
Proof.
  intros R. destruct (readable_conf p q boot n R) as (args & c0 & c & A & P & C & G & K & X & Y).
  exists args. split; [exact A|]. unfold run_child. rewrite P, C. unfold serve.
  destruct G as (G1 & G2 & G3 & G4 & G5 & G6 & G7 & G8 & G9). cbn [a_qt a_listen] in *. rewrite G2, G6. cbn [truthy].
  destruct (q_qt q && negb qt_ok); [reflexivity|].
  assert (F1 : format_fields ["procname"; "class_name"; "listen_addr"; "logaddr"; "loglevel"] c = Ok tt).
  { unfold format_fields. cbn [forallb]. rewrite !dmem_keys; [reflexivity| | | | |]; rewrite Y; cbn; tauto. }
  assert (F2 : format_fields ["class_name"; "args"] c = Err KeyError).
  { unfold format_fields, dmem. cbn [forallb]. rewrite X, andb_false_r. reflexivity. }
  rewrite F1, F2. destruct (server _); reflexivity.
Qed.

(** ** Fuel is enough *)
Lemma dashes_len l : (List.length (dashes l) <= List.length l)%nat.
Proof. induction l as [|[s []] l IH]; cbn; lia. Qed.
Lemma positional_len c l : (List.length (snd (positional c l)) <= List.length l)%nat.
Proof.
  unfold positional. pose proof (dashes_len l). destruct (dashes l) as [|[s []] r]; cbn [snd] in *; auto.
  pose proof (dashes_len r). cbn [List.length] in *. lia.
Qed.
Lemma positional_shorter c x r : is_opt x = false -> (List.length (snd (positional c (x :: r))) <= List.length r)%nat.
Proof.
  destruct x as [s []]; try discriminate; intros _.
  - unfold positional. cbn [dashes snd]. apply dashes_len.
  - change (positional c ((s, CDash) :: r)) with (positional c r). apply positional_len.
Qed.
Lemma parse_fuel f1 : forall f2 l p e c, (List.length l < f1)%nat -> (List.length l < f2)%nat -> parse f1 l p e c = parse f2 l p e c.
Proof.
  induction f1 as [|f1 IH]; intros f2 l p e c L1 L2; [lia|]. destruct f2 as [|f2]; [lia|].
  cbn [parse]. destruct (existsb is_opt l) eqn:O; [|reflexivity]. destruct l as [|[s k] r]; [reflexivity|]. cbn [List.length] in *.
  assert (K : forall b, is_opt (s, k) = false ->
    (if p then let '(c0, r0) := positional c ((s, k) :: r) in parse f1 r0 false e c0 else parse f1 r p b c) =
    (if p then let '(c0, r0) := positional c ((s, k) :: r) in parse f2 r0 false e c0 else parse f2 r p b c)).
  { intros b I. pose proof (positional_shorter c _ r I). destruct p; [|apply IH; lia].
    destruct (positional c ((s, k) :: r)) as [c1 r1]. cbn [snd] in *. apply IH; lia. }
  destruct k as [| | |[d|] [v|]]; try (apply K; reflexivity); try (apply IH; lia); try reflexivity.
  destruct r as [|[a []] r]; cbn [List.length] in *; apply IH; cbn [List.length]; lia.
Qed.

(** ** The shell *)
Lemma occurs_cons c s : ~ occurs " " (String c s) -> c <> " "%char /\ ~ occurs " " s.
Proof.
  intros N. split.
  - intros ->. apply N. exists EmptyString, s. reflexivity.
  - intros (a & b & ->). apply N. exists (String c a), b. reflexivity.
Qed.
Lemma app_assoc_s (a b c : string) : ((a ++ b) ++ c = a ++ (b ++ c))%string.
Proof. induction a; cbn; congruence. Qed.
Lemma app_nil_s (a : string) : (a ++ "" = a)%string.
Proof. induction a; cbn; congruence. Qed.
Lemma split_step c r cur : c <> " "%char -> split_words (String c r) cur = split_words r (cur ++ String c EmptyString)%string.
Proof.
  intros N. destruct c as [[] [] [] [] [] [] [] []]; try reflexivity. exfalso. apply N. reflexivity.
Qed.
Lemma split_word w : forall cur rest, ~ occurs " " w -> split_words (w ++ rest) cur = split_words rest (cur ++ w)%string.
Proof.
  induction w as [|c w IH]; intros cur rest N.
  - rewrite app_nil_s. reflexivity.
  - apply occurs_cons in N. destruct N as [C N]. change ((String c w ++ rest)%string) with (String c (w ++ rest)).
    rewrite split_step by exact C. rewrite IH by exact N. rewrite app_assoc_s. reflexivity.
Qed.
Lemma split_join l : Forall plain_word l -> split_words (join l) "" = l.
Proof.
  induction 1 as [|w l [W N] F IH]; [reflexivity|]. cbn [join]. destruct l as [|w2 l].
  - rewrite <- (app_nil_s w) at 1. rewrite split_word by exact N. cbn [append split_words].
    destruct (String.eqb_spec w ""); [contradiction|reflexivity].
  - rewrite split_word by exact N. cbn [append]. set (j := join (w2 :: l)) in *. cbn [split_words].
    destruct (String.eqb_spec w ""); [contradiction|]. rewrite IH. reflexivity.
Qed.

(** ** Names with a dash *)
Lemma contains_space_false s : ~ occurs " " s -> contains " " s = false.
Proof. intros N. destruct (contains " " s) eqn:E; auto. exfalso. apply N, contains_spec, E. Qed.
Lemma split_eq_dash c r : c <> "="%char -> split_eq (String "-" (String c r)) = match split_eq r with Some (a, b) => Some (String "-" (String c a), b) | None => None end.
Proof.
  intros N. cbn [split_eq]. destruct c as [[] [] [] [] [] [] [] []]; try (exfalso; apply N; reflexivity); destruct (split_eq r) as [[]|]; reflexivity.
Qed.
Lemma dget_options_dash c r : c <> "-"%char -> c <> "h"%char -> dget options (String "-" (String c r)) = None.
Proof.
  intros D H. unfold options. cbn [dget eqb Eqb_string].
  assert (E1 : forall t, String.eqb (String "-" (String c r)) (String "-" (String "-" t)) = false).
  { intros t. apply String.eqb_neq. congruence. }
  assert (E2 : String.eqb (String "-" (String c r)) "-h" = false) by (apply String.eqb_neq; congruence).
  rewrite E2, !E1. reflexivity.
Qed.
Lemma option_tuples_dash c r : c <> "-"%char -> c <> "h"%char -> option_tuples (String "-" (String c r)) = [].
Proof.
  intros D H.
  assert (U : option_tuples (String "-" (String c r)) =
    flat_map (fun o => if String.eqb (fst o) (String "-" (String c EmptyString)) then [COpt (snd o) (Some r)]
                       else if starts (String "-" (String c r)) (fst o) then [COpt (snd o) None] else []) options).
  { destruct c as [[] [] [] [] [] [] [] []]; try reflexivity. exfalso. apply D. reflexivity. }
  rewrite U. clear U. unfold options. cbn [flat_map fst snd].
  assert (E1 : forall t, String.eqb (String "-" (String "-" t)) (String "-" (String c EmptyString)) = false).
  { intros t. apply String.eqb_neq. congruence. }
  assert (E2 : String.eqb "-h" (String "-" (String c EmptyString)) = false) by (apply String.eqb_neq; congruence).
  assert (S1 : forall t, starts (String "-" (String c r)) (String "-" (String "-" t)) = false).
  { intros t. cbn [starts]. rewrite (proj2 (Ascii.eqb_neq c "-")) by exact D. rewrite andb_false_r. reflexivity. }
  assert (S2 : starts (String "-" (String c r)) "-h" = false).
  { cbn [starts]. rewrite (proj2 (Ascii.eqb_neq c "h")) by exact H. rewrite andb_false_r. reflexivity. }
  rewrite E2, S2, !E1, !S1. reflexivity.
Qed.
Lemma parse_optional_unknown c r : c <> "-"%char -> c <> "h"%char -> c <> "="%char ->
  negative_number (String "-" (String c r)) = false -> ~ occurs " " (String "-" (String c r)) ->
  parse_optional (String "-" (String c r)) = Some CUnknown.
Proof.
  intros D H E N S. unfold parse_optional. rewrite dget_options_dash by assumption. rewrite split_eq_dash by exact E.
  assert (X : match (match split_eq r with Some (a, b) => Some (String "-" (String c a), b) | None => None end) with
              | Some (a, b) => match dget options a with Some d => Some (COpt d (Some b)) | None => None end | None => None end = None).
  { destruct (split_eq r) as [[a b]|]; auto. rewrite dget_options_dash by assumption. reflexivity. }
  rewrite X, option_tuples_dash by assumption. rewrite N, contains_space_false by exact S. reflexivity.
Qed.
(** once something was not recognised the program ends *)
Lemma parse_extra f : forall l p c, parse f l p true c = None.
Proof.
  induction f as [|f IH]; intros l p c; cbn [parse]; auto. destruct (existsb is_opt l).
  - destruct l as [|[s [| | |[d|] [v|]]] r]; auto.
    + destruct p; auto. destruct (positional _ _); auto.
    + destruct p; auto. destruct (positional _ _); auto.
    + destruct r as [|[a []] r]; auto.
  - destruct (if p then positional c l else (c, l)) as [c1 r1]. destruct r1; reflexivity.
Qed.
Lemma unknown_first s l : String.eqb s "--" = false -> parse_optional s = Some CUnknown -> parse_args (s :: l) = None.
Proof.
  intros N U. unfold parse_args. cbn [classify]. rewrite N, U. destruct (classify l) as [t|]; auto.
  change (parse (S (List.length t)) t true true conf0 = None). apply parse_extra.
Qed.

(** ** names that begin with '-' *)
Lemma not_negative c r : ~ In c ["-"; "h"; "="; "."]%char -> ~ (48 <= nat_of_ascii c <= 57)%nat ->
  negative_number (String "-" (String c r)) = false.
Proof.
  intros N D. assert (E : digit c = None).
  { unfold digit. destruct ((0 <=? Z.of_nat (nat_of_ascii c) - 48) && (Z.of_nat (nat_of_ascii c) - 48 <=? 9)) eqn:X; auto.
    apply andb_true_iff in X. destruct X as [X Y]. apply Z.leb_le in X, Y. lia. }
  cbn [negative_number isdigit all_digits]. rewrite E. cbn [orb].
  assert (P : c <> "."%char) by (intros ->; apply N; cbn; auto).
  revert E P. clear. destruct c as [[] [] [] [] [] [] [] []]; cbn; intros E P; try rewrite E; try reflexivity; try discriminate; congruence.
Qed.
Lemma dash_name p q w c r log n : asks_name p q (String "-" (String c r)) ->
  ~ In c ["-"; "h"; "="; "."]%char -> ~ (48 <= nat_of_ascii c <= 57)%nat -> ~ occurs " " (String "-" (String c r)) ->
  asks_log p q log -> sendable log -> asks_level p q n ->
  start_process false p q w = (Err TimeoutError, false).
Proof.
  intros E C D S L SL LV. pose proof (not_negative c r C D) as N. apply asks_name_of in E. apply asks_log_of in L. apply asks_level_of in LV.
  assert (exists args l, bootstrap_args p q (w_boot w) = Ok args /\ args = name_of p q :: l) as (args & l & A & X).
  { unfold bootstrap_args. rewrite LV, L. cbn [bind]. destruct SL as [->|(b & ->)]; cbn [bind decode app]; eauto. }
  unfold start_process. rewrite A. cbn [through_shell].
  assert (Y : parse_args args = None).
  { rewrite X, E. apply unknown_first; [apply String.eqb_neq; intros [= -> ->]; apply C; cbn; auto|].
    apply parse_optional_unknown; auto; intros ->; apply C; cbn; auto. }
  unfold run_child. rewrite Y. reflexivity.
Qed.
