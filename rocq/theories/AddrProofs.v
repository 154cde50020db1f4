From Verif Require Import Py UtilModel AddrModel AddrSpec.
Local Open Scope Z_scope.

Lemma digit_is_digit c z : digit_is c z <-> digit c = Some z.
Proof.
  split.
  - intros H. unfold digit_is in H. decompose [or and] H; subst; reflexivity.
  - unfold digit_is. destruct c as [[] [] [] [] [] [] [] []]; cbn; intro H; try discriminate; injection H as <-; tauto.
Qed.
Lemma digits_app d : forall acc c, digits acc (d ++ String c EmptyString) = match digits acc d with Some n => digits n (String c EmptyString) | None => None end.
Proof. induction d as [|x d IH]; intros acc c; [reflexivity|]. cbn. destruct (digit x); [apply IH|reflexivity]. Qed.
Lemma number_digits d n : number d n -> d <> EmptyString /\ digits 0 d = Some n.
Proof.
  induction 1 as [c z H|d n c z H [IH1 IH2] Hc].
  - split; [discriminate|]. apply digit_is_digit in H. cbn [digits]. rewrite H. reflexivity.
  - split; [destruct d; discriminate|]. rewrite digits_app, IH2. cbn [digits]. apply digit_is_digit in Hc. rewrite Hc. reflexivity.
Qed.
Lemma str_snoc (s : string) : s = EmptyString \/ exists a c, s = (a ++ String c EmptyString)%string.
Proof.
  induction s as [|c s [->|(a & x & ->)]]; [left; reflexivity|right; exists EmptyString, c; reflexivity|right; exists (String c a), x; reflexivity].
Qed.
Lemma app_len (a b : string) : String.length (a ++ b) = (String.length a + String.length b)%nat.
Proof. induction a; cbn; auto. Qed.
Lemma digits_number d n : d <> EmptyString -> digits 0 d = Some n -> number d n.
Proof.
  remember (String.length d) as k eqn:K. revert d n K. induction k as [k IH] using lt_wf_ind. intros d n -> N H.
  destruct (str_snoc d) as [->|(a & c & ->)]; [contradiction|]. rewrite digits_app in H. destruct (digits 0 a) as [m|] eqn:A; [|discriminate].
  cbn [digits] in H. destruct (digit c) as [z|] eqn:D; [|discriminate]. injection H as <-. apply digit_is_digit in D. destruct a as [|x a].
  - injection A as <-. replace (10 * 0 + z) with z by lia. apply number_one. exact D.
  - apply number_more; [|exact D]. refine (IH (String.length (String x a)) _ _ _ eq_refl _ A); [|discriminate]. rewrite app_len. cbn. lia.
Qed.
(** all characters are digits *)
Fixpoint alld (d : string) : Prop := match d with EmptyString => True | String c r => is_digit c = true /\ alld r end.
Lemma digits_alld d : forall acc n, digits acc d = Some n -> alld d.
Proof. induction d as [|c d IH]; intros acc n H; [exact I|]. cbn in *. unfold is_digit. destruct (digit c); [|discriminate]. split; [reflexivity|eauto]. Qed.
Lemma alld_digits d : alld d -> forall acc, exists n, digits acc d = Some n.
Proof. induction d as [|c d IH]; intros H acc; [eexists; reflexivity|]. destruct H as [H1 H2]. cbn. unfold is_digit in H1. destruct (digit c); [apply IH; exact H2|discriminate]. Qed.
Lemma newline_no_digit : is_digit newline = false. Proof. reflexivity. Qed.
Lemma colon_no_digit : is_digit colon = false. Proof. reflexivity. Qed.

Lemma re_digits_end d : alld d -> re_digits d = Some d /\ re_digits (d ++ String newline EmptyString) = Some d.
Proof.
  induction d as [|c d IH]; intros H; [split; reflexivity|]. destruct H as [H1 H2]. destruct (IH H2) as [A B]. cbn [re_digits append]. rewrite H1, A, B.
  split; [destruct d; [cbn in *|]; reflexivity|]. destruct d; reflexivity.
Qed.
Lemma re_digits_inv s : forall d, re_digits s = Some d -> alld d /\ (s = d \/ s = d ++ String newline EmptyString)%string.
Proof.
  induction s as [|c s IH]; intros d H; [injection H as <-; split; [exact I|auto]|]. cbn [re_digits] in H. destruct s as [|x s].
  - destruct (is_digit c) eqn:D; [injection H as <-; cbn; auto|]. destruct (Ascii.eqb c newline) eqn:N; [|discriminate].
    injection H as <-. apply Ascii.eqb_eq in N. subst. split; [exact I|right; reflexivity].
  - destruct (is_digit c) eqn:D; [|discriminate]. destruct (re_digits (String x s)) as [d'|] eqn:R; [|discriminate]. injection H as <-.
    destruct (IH d' eq_refl) as [A [B|B]]; rewrite B in *; (split; [cbn; auto|auto]).
Qed.
(** no colon among digits *)
Lemma re_host_digits d : alld d -> re_host d = None /\ re_host (d ++ String newline EmptyString) = None.
Proof.
  induction d as [|c d IH]; intros H; [split; reflexivity|]. destruct H as [H1 H2]. destruct (IH H2) as [A B]. cbn [re_host append]. rewrite A, B.
  assert (Ascii.eqb c colon = false) as -> by (destruct (Ascii.eqb c colon) eqn:E; [apply Ascii.eqb_eq in E; subst; rewrite colon_no_digit in H1; discriminate|reflexivity]).
  destruct (Ascii.eqb c newline); auto.
Qed.
Lemma one_line_tl c h : one_line (String c h) -> c <> newline /\ one_line h.
Proof. intros H. split; [intros ->; apply (H EmptyString h); reflexivity|]. intros a b E. apply (H (String c a) b). rewrite E. reflexivity. Qed.
Lemma re_host_ok h d e : one_line h -> alld d -> d <> EmptyString -> e = EmptyString \/ e = String newline EmptyString ->
  re_host (h ++ String colon (d ++ e)) = Some (h, d).
Proof.
  intros L D N Ee. assert (X : re_host (d ++ e) = None /\ re_port (d ++ e) = Some d).
  { destruct (re_host_digits d D) as [A B]. destruct (re_digits_end d D) as [P Q]. assert (Z : (d ++ "")%string = d) by (clear; induction d; cbn; congruence).
    unfold re_port. destruct Ee as [->| ->]; rewrite ?Z, ?A, ?B, ?P, ?Q; (split; [reflexivity|destruct d; [contradiction|reflexivity]]). }
  destruct X as [X Y]. induction h as [|c h IH]; cbn [append re_host].
  - rewrite X, Y. change (Ascii.eqb colon newline) with false. rewrite Ascii.eqb_refl. reflexivity.
  - destruct (one_line_tl c h L) as [N1 L1]. rewrite (IH L1). destruct (Ascii.eqb c newline) eqn:Z; [apply Ascii.eqb_eq in Z; contradiction|reflexivity].
Qed.
Lemma re_host_inv s : forall h d, re_host s = Some (h, d) -> one_line h /\ alld d /\ d <> EmptyString /\
  exists e, (e = EmptyString \/ e = String newline EmptyString) /\ s = (h ++ String colon (d ++ e))%string.
Proof.
  assert (Z : forall d : string, (d ++ "")%string = d) by (intro d; induction d; cbn; congruence).
  assert (NL : forall c h, c <> newline -> one_line h -> one_line (String c h)).
  { intros c h N L a b E. destruct a as [|x a]; [injection E as -> _; contradiction|]. injection E as _ E. exact (L a b E). }
  assert (Base : forall c r h d, (if Ascii.eqb c colon then match re_port r with Some d => Some (EmptyString, d) | None => None end else None) = Some (h, d) ->
    one_line h /\ alld d /\ d <> EmptyString /\ exists e, (e = EmptyString \/ e = String newline EmptyString) /\ String c r = (h ++ String colon (d ++ e))%string).
  { intros c r h d H. destruct (Ascii.eqb c colon) eqn:C; [|discriminate]. apply Ascii.eqb_eq in C. subst c. unfold re_port in H.
    destruct (re_digits r) as [d'|] eqn:R; [|discriminate]. destruct (re_digits_inv r d' R) as [A B]. destruct d' as [|x d']; [discriminate|]. injection H as <- <-.
    split; [intros a b E; destruct a; discriminate|]. split; [exact A|]. split; [discriminate|].
    destruct B as [->| ->]; [exists EmptyString; split; [auto|]; rewrite Z; reflexivity|exists (String newline EmptyString); split; [auto|reflexivity]]. }
  induction s as [|c r IH]; intros h d H; [discriminate|]. cbn [re_host] in H. destruct (Ascii.eqb c newline) eqn:N; [apply Base; exact H|].
  destruct (re_host r) as [[h' d']|]; [|apply Base; exact H]. injection H as <- <-. destruct (IH h' d' eq_refl) as (A & B & C & e & E1 & E2).
  split; [apply NL; [intros ->; rewrite Ascii.eqb_refl in N; discriminate|exact A]|]. split; [exact B|]. split; [exact C|]. exists e. split; [exact E1|]. rewrite E2. reflexivity.
Qed.
Lemma strip_ok p s : strip p (p ++ s) = Some s.
Proof. induction p as [|c p IH]; [destruct s; reflexivity|]. cbn [strip append]. rewrite Ascii.eqb_refl. exact IH. Qed.
Lemma strip_inv p : forall s r, strip p s = Some r -> s = (p ++ r)%string.
Proof.
  induction p as [|c p IH]; intros s r H; [destruct s; injection H as <-; reflexivity|]. destruct s as [|x s]; [discriminate|]. cbn in H.
  destruct (Ascii.eqb c x) eqn:E; [|discriminate]. apply Ascii.eqb_eq in E. subst. cbn. rewrite (IH _ _ H). reflexivity.
Qed.
Lemma match_ok a h p : address a h p -> exists d, re_match a = Some (h, d) /\ to_int d = Ok p.
Proof.
  intros (d & N & (H1 & H2) & E). destruct (number_digits d p N) as [D1 D2]. exists d.
  assert (Z : (d ++ "")%string = d) by (clear; induction d; cbn; congruence).
  assert (X : re_match a = Some (h, d)).
  { destruct h as [|c h]; [contradiction|]. destruct (one_line_tl c h H2) as [C1 C2]. pose proof (digits_alld _ _ _ D2) as AD.
    assert (Y : forall e, e = EmptyString \/ e = String newline EmptyString -> re_match ("tcp://" ++ String c h ++ ":" ++ d ++ e)%string = Some (String c h, d)).
    { intros e Ee. unfold re_match. rewrite strip_ok. unfold re_host1. cbn [append]. destruct (Ascii.eqb c newline) eqn:Q; [apply Ascii.eqb_eq in Q; contradiction|].
      change (String ":" (d ++ e)) with (String colon (d ++ e)). rewrite re_host_ok; auto. }
    destruct E as [->| ->]; [pose proof (Y EmptyString (or_introl eq_refl)) as T; rewrite Z in T; exact T|apply Y; auto]. }
  split; [exact X|]. unfold to_int. destruct d; [contradiction|]. rewrite D2. reflexivity.
Qed.
Lemma match_inv a h d : re_match a = Some (h, d) -> exists p, address a h p.
Proof.
  unfold re_match. destruct (strip "tcp://" a) as [r|] eqn:S; [|discriminate]. apply strip_inv in S. subst a. unfold re_host1. destruct r as [|c r]; [discriminate|].
  destruct (Ascii.eqb c newline) eqn:Q; [discriminate|]. destruct (re_host r) as [[h' d']|] eqn:R; [|discriminate]. intros X. injection X as <- <-.
  destruct (re_host_inv r h' d' R) as (A & B & C & e & E1 & E2). destruct (alld_digits d' B 0) as (n & N). exists n, d'.
  split; [apply digits_number; assumption|]. split; [split; [discriminate|]|].
  - intros x y E. destruct x as [|z x]; [injection E as -> _; rewrite Ascii.eqb_refl in Q; discriminate|]. injection E as _ E. exact (A x y E).
  - assert (Z : (d' ++ "")%string = d') by (clear; induction d'; cbn; congruence). rewrite E2. destruct E1 as [->| ->]; [left; rewrite Z; reflexivity|right; reflexivity].
Qed.

Lemma check_reports n a h p : address a h p -> p <= 65535 -> n_find n h = Found ->
  check_address n a = Ok (Some (status_of (n_connect n h p))).
Proof.
  intros A P F. destruct (match_ok a h p A) as (d & M & T). unfold check_address. rewrite M, T. cbn [bind]. unfold check_tcp_port, connect. rewrite F.
  assert (max_int <? p = false) as -> by (apply Z.ltb_ge; unfold max_int; lia). assert (max_port <? p = false) as -> by (apply Z.ltb_ge; unfold max_port; lia).
  destruct (n_connect n h p); reflexivity.
Qed.
Lemma check_none n a : (forall h p, ~ address a h p) -> check_address n a = Ok None.
Proof.
  intros N. unfold check_address. destruct (re_match a) as [[h d]|] eqn:M; [|reflexivity]. destruct (match_inv a h d M) as (p & A). exfalso. exact (N h p A).
Qed.
Lemma check_overflow n a h p : address a h p -> n_find n h = Found /\ 65535 < p \/ n_find n h = Unknown /\ 2147483647 < p -> check_address n a = Err (UserExc "OverflowError") /\ client_check n a = Err (UserExc "OverflowError").
Proof.
  intros A P. destruct (match_ok a h p A) as (d & M & T). unfold client_check, check_address. rewrite M, T. cbn [bind]. unfold check_tcp_port, connect.
  destruct P as [[F P]|[F P]]; rewrite F.
  - assert (max_port <? p = true) as -> by (apply Z.ltb_lt; unfold max_port; lia). destruct (max_int <? p); split; reflexivity.
  - assert (max_int <? p = true) as -> by (apply Z.ltb_lt; unfold max_int; lia). split; reflexivity.
Qed.
Lemma check_unknown n a h p : address a h p -> p <= 2147483647 -> n_find n h = Unknown -> check_address n a = Ok (Some SClosed) /\ client_check n a = Err ConnectionRefusedError.
Proof.
  intros A P F. destruct (match_ok a h p A) as (d & M & T). unfold client_check, check_address. rewrite M, T. cbn [bind]. unfold check_tcp_port, connect. rewrite F.
  assert (max_int <? p = false) as -> by (apply Z.ltb_ge; unfold max_int; lia). split; reflexivity.
Qed.
Lemma client_refused n a h p : address a h p -> p <= 65535 -> n_find n h = Found ->
  (n_connect n h p = Accepted \/ n_connect n h p = TimedOut) /\ client_check n a = Ok tt \/
  ~ (n_connect n h p = Accepted \/ n_connect n h p = TimedOut) /\ client_check n a = Err ConnectionRefusedError.
Proof.
  intros A P F. unfold client_check. rewrite (check_reports n a h p A P F). cbn [bind]. destruct (n_connect n h p); cbn; [left|left|right|right]; intuition discriminate.
Qed.
