(** Proofs about capturing output. *)
From Verif Require Import Py PipeModel PipeSpec.
Local Open Scope Z_scope.

Ltac bool_cases :=
  repeat match goal with
  | |- context [?a <? ?b] => destruct (Z.ltb_spec a b)
  | |- context [?a =? ?b] => destruct (Z.eqb_spec a b)
  | |- context [?a <=? ?b] => destruct (Z.leb_spec a b)
  end.

Ltac divs c :=
  pose proof (Z.div_mod c 64 ltac:(lia)); pose proof (Z.mod_pos_bound c 64 ltac:(lia));
  pose proof (Z.div_mod (c/64) 64 ltac:(lia)); pose proof (Z.mod_pos_bound (c/64) 64 ltac:(lia));
  pose proof (Z.div_mod (c/4096) 64 ltac:(lia)); pose proof (Z.mod_pos_bound (c/4096) 64 ltac:(lia)).

(** continuation bytes *)
Lemma utf8_S m lo hi acc b r : lo <= b <= hi ->
  utf8 (S m) lo hi acc (b :: r) =
  match m with O => option_map (cons (acc * 64 + (b - 128))) (utf8 0 128 191 0 r)
             | _ => utf8 m 128 191 (acc * 64 + (b - 128)) r end.
Proof.
  intros H. cbn [utf8]. destruct (Z.leb_spec lo b); [|lia]. destruct (Z.leb_spec b hi); [|lia]. reflexivity.
Qed.
Lemma utf8_0 b r : utf8 0 128 191 0 (b :: r) =
          if b <? 128 then if b <? 0 then None else option_map (cons b) (utf8 0 128 191 0 r)
          else if b <? 194 then None
          else if b <? 224 then utf8 1 128 191 (b - 192) r
          else if b =? 224 then utf8 2 160 191 0 r
          else if b =? 237 then utf8 2 128 159 13 r
          else if b <? 240 then utf8 2 128 191 (b - 224) r
          else if b =? 240 then utf8 3 144 191 0 r
          else if b <? 244 then utf8 3 128 191 (b - 240) r
          else if b =? 244 then utf8 3 128 143 4 r
          else None.
Proof. reflexivity. Qed.

Lemma div4096 c : c / 4096 = c / 64 / 64.
Proof. rewrite Z.div_div by lia. reflexivity. Qed.
Lemma div262144 c : c / 262144 = c / 64 / 64 / 64.
Proof. rewrite !Z.div_div by lia. reflexivity. Qed.

Lemma utf8_encode1 c r : scalar c -> utf8 0 128 191 0 (encode1 c ++ r) = option_map (cons c) (utf8 0 128 191 0 r).
Proof.
  intros S. unfold encode1. destruct (Z.ltb_spec c 128) as [A|A].
  { cbn [app]. rewrite utf8_0. destruct (Z.ltb_spec c 128); [|lia]. destruct (Z.ltb_spec c 0); [|reflexivity].
    destruct S; lia. }
  destruct (Z.ltb_spec c 2048) as [B|B].
  { pose proof (Z.div_mod c 64 ltac:(lia)) as D. pose proof (Z.mod_pos_bound c 64 ltac:(lia)) as M.
    set (q := c / 64) in *. set (m := c mod 64) in *.
    cbn [app]. rewrite utf8_0.
    destruct (Z.ltb_spec (192 + q) 128); [lia|]. destruct (Z.ltb_spec (192 + q) 194); [lia|].
    destruct (Z.ltb_spec (192 + q) 224); [|lia]. rewrite utf8_S by lia. do 2 f_equal. lia. }
  rewrite div4096, div262144.
  pose proof (Z.div_mod c 64 ltac:(lia)) as D. pose proof (Z.mod_pos_bound c 64 ltac:(lia)) as M.
  set (q := c / 64) in *. set (m := c mod 64) in *.
  pose proof (Z.div_mod q 64 ltac:(lia)) as D1. pose proof (Z.mod_pos_bound q 64 ltac:(lia)) as M1.
  set (q1 := q / 64) in *. set (m1 := q mod 64) in *.
  destruct (Z.ltb_spec c 65536) as [C|C].
  { cbn [app]. rewrite utf8_0.
    destruct (Z.ltb_spec (224 + q1) 128); [lia|]. destruct (Z.ltb_spec (224 + q1) 194); [lia|].
    destruct (Z.ltb_spec (224 + q1) 224); [lia|].
    destruct (Z.eqb_spec (224 + q1) 224).
    { rewrite !utf8_S by lia. do 2 f_equal. lia. }
    destruct (Z.eqb_spec (224 + q1) 237).
    { destruct S; [|lia]. rewrite !utf8_S by lia. do 2 f_equal. lia. }
    destruct (Z.ltb_spec (224 + q1) 240); [|lia]. rewrite !utf8_S by lia. do 2 f_equal. lia. }
  pose proof (Z.div_mod q1 64 ltac:(lia)) as D2. pose proof (Z.mod_pos_bound q1 64 ltac:(lia)) as M2.
  set (q2 := q1 / 64) in *. set (m2 := q1 mod 64) in *.
  cbn [app]. rewrite utf8_0. assert (c <= 1114111) by (destruct S; lia).
  destruct (Z.ltb_spec (240 + q2) 128); [lia|]. destruct (Z.ltb_spec (240 + q2) 194); [lia|].
  destruct (Z.ltb_spec (240 + q2) 224); [lia|]. destruct (Z.eqb_spec (240 + q2) 224); [lia|].
  destruct (Z.eqb_spec (240 + q2) 237); [lia|]. destruct (Z.ltb_spec (240 + q2) 240); [lia|].
  destruct (Z.eqb_spec (240 + q2) 240).
  { rewrite !utf8_S by lia. do 2 f_equal. lia. }
  destruct (Z.ltb_spec (240 + q2) 244).
  { rewrite !utf8_S by lia. do 2 f_equal. lia. }
  destruct (Z.eqb_spec (240 + q2) 244); [|lia]. rewrite !utf8_S by lia. do 2 f_equal. lia.
Qed.

Lemma decode_encode_app t r : Forall scalar t ->
  utf8 0 128 191 0 (encode t ++ r) = option_map (app t) (utf8 0 128 191 0 r).
Proof.
  induction 1 as [|c t S F IH]; cbn [encode flat_map app].
  - destruct (utf8 0 128 191 0 r); reflexivity.
  - rewrite <- app_assoc. fold (encode t). rewrite utf8_encode1, IH by auto. destruct (utf8 0 128 191 0 r); reflexivity.
Qed.
Lemma decode_encode t : Forall scalar t -> decode (encode t) = Some t.
Proof.
  intros F. unfold decode. rewrite <- (app_nil_r (encode t)), decode_encode_app by auto. cbn. rewrite app_nil_r. reflexivity.
Qed.

Lemma encode1_no_nl c : scalar c -> c <> 10 -> ~ In 10 (encode1 c).
Proof.
  intros S N. assert (0 <= c) by (destruct S; lia). unfold encode1.
  assert (0 <= c / 64) by (apply Z.div_pos; lia). assert (0 <= c / 4096) by (apply Z.div_pos; lia).
  assert (0 <= c / 262144) by (apply Z.div_pos; lia).
  pose proof (Z.mod_pos_bound c 64 ltac:(lia)). pose proof (Z.mod_pos_bound (c / 64) 64 ltac:(lia)).
  pose proof (Z.mod_pos_bound (c / 4096) 64 ltac:(lia)).
  destruct (c <? 128); [|destruct (c <? 2048); [|destruct (c <? 65536)]]; cbn [In]; intros I;
    repeat (destruct I as [I|I]; [lia|]); exact I.
Qed.
Lemma encode_no_nl t : line_ok t -> ~ In 10 (encode t).
Proof.
  intros [F N]. induction F as [|c t S F IH]; cbn; [tauto|]. rewrite in_app_iff. intros [I|I].
  - revert I. apply encode1_no_nl; auto. intros ->. apply N. left. reflexivity.
  - apply IH; auto. intros J. apply N. right. exact J.
Qed.

Lemma readlines_cons b r : b <> 10 ->
  readlines (b :: r) = match readlines r with [] => [[b]] | x :: t => (b :: x) :: t end.
Proof.
  intros N. cbn [readlines]. destruct b as [|p|p]; auto.
  destruct p as [[]|[[[]|[]|]|[]|]|]; auto; congruence.
Qed.
Lemma readlines_line l r : ~ In 10 l -> readlines (l ++ 10 :: r) = (l ++ [10]) :: readlines r.
Proof.
  induction l as [|b l IH]; intros N; cbn [app]; auto.
  rewrite readlines_cons by (intros ->; apply N; left; reflexivity).
  rewrite IH by (intros I; apply N; right; exact I). reflexivity.
Qed.
Lemma readlines_last l : ~ In 10 l -> l <> [] -> readlines l = [l].
Proof.
  induction l as [|b l IH]; intros N E; [congruence|].
  rewrite readlines_cons by (intros ->; apply N; left; reflexivity).
  destruct l as [|c l]; auto. rewrite IH; auto; [|discriminate]. intros I. apply N. right. exact I.
Qed.

Lemma readlines_written ts rest : Forall line_ok ts ->
  readlines (written ts ++ rest) = map (fun t => encode t ++ [10]) ts ++ readlines rest.
Proof.
  induction 1 as [|t ts L F IH]; cbn [written flat_map map app]; auto.
  rewrite <- !app_assoc. cbn [app]. rewrite readlines_line by (apply encode_no_nl, L). fold (written ts). rewrite IH. reflexivity.
Qed.
Lemma decode_line t : Forall scalar t -> decode (encode t ++ [10]) = Some (t ++ [10]).
Proof. intros F. unfold decode. rewrite decode_encode_app by auto. reflexivity. Qed.

Lemma poll_lines p ts rest : Forall line_ok ts ->
  poll p (map (fun t => encode t ++ [10]) ts ++ rest) =
  (map (app p) ts ++ fst (poll p rest), snd (poll p rest)).
Proof.
  induction 1 as [|t ts [S N] F IH]; cbn [map app poll]. { destruct (poll p rest); reflexivity. }
  rewrite decode_line by auto. destruct (t ++ [10]) eqn:E; [destruct t; discriminate|]. rewrite <- E.
  rewrite IH. rewrite removelast_last. reflexivity.
Qed.

Lemma poller_lines p ts rest : Forall line_ok ts ->
  poller p (written ts ++ rest) = (map (app p) ts ++ fst (poller p rest), snd (poller p rest)).
Proof. intros F. unfold poller. rewrite readlines_written by auto. apply poll_lines, F. Qed.

Lemma encode1_cons c : exists b l, encode1 c = b :: l.
Proof. unfold encode1. destruct (c <? 128), (c <? 2048), (c <? 65536); eauto. Qed.

Lemma poller_last p ts c t : Forall line_ok ts -> line_ok (t ++ [c]) ->
  poller p (written ts ++ encode (t ++ [c])) = (map (app p) (ts ++ [t]), AtEof).
Proof.
  intros F L. rewrite poller_lines by auto. unfold poller. rewrite readlines_last.
  - cbn [poll]. rewrite decode_encode by apply L. destruct (t ++ [c]) eqn:E; [destruct t; discriminate|].
    rewrite <- E, removelast_last. cbn. rewrite map_app. reflexivity.
  - apply encode_no_nl, L.
  - unfold encode. rewrite flat_map_app. cbn. destruct (encode1_cons c) as (b & l & ->). destruct (flat_map encode1 t); discriminate.
Qed.

(** bytes that are not UTF-8 *)
Lemma poller_bad p ts x rest : Forall line_ok ts -> ~ In 10 x -> decode (x ++ [10]) = None ->
  poller p (written ts ++ x ++ 10 :: rest) = (map (app p) ts, Died UnicodeDecodeError).
Proof.
  intros F N D. rewrite poller_lines by auto. unfold poller. rewrite readlines_line by auto. cbn. rewrite D. cbn.
  rewrite app_nil_r. reflexivity.
Qed.

(** ** what decodes is UTF-8 *)
Lemma utf8_S_inv m lo hi acc l t : utf8 (S m) lo hi acc l = Some t ->
  exists b r, l = b :: r /\ lo <= b <= hi /\
  match m with O => option_map (cons (acc * 64 + (b - 128))) (utf8 0 128 191 0 r)
             | _ => utf8 m 128 191 (acc * 64 + (b - 128)) r end = Some t.
Proof.
  destruct l as [|b r]; cbn [utf8]; [discriminate|].
  destruct (Z.leb_spec lo b); [|discriminate]. destruct (Z.leb_spec b hi); [|discriminate]. cbn [andb]. eauto 6.
Qed.
Lemma om_inv {A} (c : A) o t : option_map (cons c) o = Some t -> exists t', o = Some t' /\ t = c :: t'.
Proof. destruct o; cbn; intros [= <-]; eauto. Qed.

Lemma encode1_2 a b : 2 <= a <= 31 -> 0 <= b <= 63 -> encode1 (a * 64 + b) = [192 + a; 128 + b].
Proof.
  intros A B. unfold encode1. destruct (Z.ltb_spec (a * 64 + b) 128); [lia|]. destruct (Z.ltb_spec (a * 64 + b) 2048); [|lia].
  replace ((a * 64 + b) / 64) with a by (apply Z.div_unique with b; lia).
  replace ((a * 64 + b) mod 64) with b by (apply Z.mod_unique with a; lia). reflexivity.
Qed.
Lemma encode1_3 a b c : 0 <= a <= 15 -> 0 <= b <= 63 -> 0 <= c <= 63 -> 2048 <= (a * 64 + b) * 64 + c ->
  encode1 ((a * 64 + b) * 64 + c) = [224 + a; 128 + b; 128 + c].
Proof.
  intros A B C L. unfold encode1. set (x := (a * 64 + b) * 64 + c) in *.
  destruct (Z.ltb_spec x 128); [lia|]. destruct (Z.ltb_spec x 2048); [lia|]. destruct (Z.ltb_spec x 65536); [|lia].
  replace (x / 4096) with a by (apply Z.div_unique with (b * 64 + c); lia).
  replace (x / 64) with (a * 64 + b) by (apply Z.div_unique with c; lia).
  replace ((a * 64 + b) mod 64) with b by (apply Z.mod_unique with a; lia).
  replace (x mod 64) with c by (apply Z.mod_unique with (a * 64 + b); lia). reflexivity.
Qed.
Lemma encode1_4 a b c d : 0 <= a -> 0 <= b <= 63 -> 0 <= c <= 63 -> 0 <= d <= 63 -> 65536 <= ((a * 64 + b) * 64 + c) * 64 + d ->
  encode1 (((a * 64 + b) * 64 + c) * 64 + d) = [240 + a; 128 + b; 128 + c; 128 + d].
Proof.
  intros A B C D L. unfold encode1. set (x := ((a * 64 + b) * 64 + c) * 64 + d) in *.
  destruct (Z.ltb_spec x 128); [lia|]. destruct (Z.ltb_spec x 2048); [lia|]. destruct (Z.ltb_spec x 65536); [lia|].
  replace (x / 262144) with a by (apply Z.div_unique with ((b * 64 + c) * 64 + d); lia).
  replace (x / 4096) with (a * 64 + b) by (apply Z.div_unique with (c * 64 + d); lia).
  replace (x / 64) with ((a * 64 + b) * 64 + c) by (apply Z.div_unique with d; lia).
  replace ((a * 64 + b) mod 64) with b by (apply Z.mod_unique with a; lia).
  replace (((a * 64 + b) * 64 + c) mod 64) with c by (apply Z.mod_unique with (a * 64 + b); lia).
  replace (x mod 64) with d by (apply Z.mod_unique with ((a * 64 + b) * 64 + c); lia). reflexivity.
Qed.

Lemma decode_sound_n n : forall l t, (List.length l <= n)%nat -> utf8 0 128 191 0 l = Some t -> Forall scalar t /\ l = encode t.
Proof.
  induction n as [|n IH]; intros [|b l] t L E; cbn [List.length] in L; try lia;
    try (cbn in E; injection E as <-; split; [constructor|reflexivity]).
  rewrite utf8_0 in E.
  assert (K : forall c r t, (List.length r <= n)%nat -> scalar c -> option_map (cons c) (utf8 0 128 191 0 r) = Some t ->
     forall pre, encode1 c = pre -> Forall scalar t /\ pre ++ r = encode t).
  { intros c r t0 Lr Sc O pre Ep. apply om_inv in O. destruct O as (t' & O & ->). destruct (IH r t' Lr O) as [F R].
    split; [constructor; auto|]. cbn [encode flat_map]. rewrite Ep. fold (encode t'). rewrite <- R. reflexivity. }
  destruct (Z.ltb_spec b 128) as [B|B].
  { destruct (Z.ltb_spec b 0); [discriminate|]. refine (K b l t _ _ E [b] _); [lia|left; lia|].
    unfold encode1. destruct (Z.ltb_spec b 128); [reflexivity|lia]. }
  destruct (Z.ltb_spec b 194) as [B1|B1]; [discriminate|].
  destruct (Z.ltb_spec b 224) as [B2|B2].
  { apply utf8_S_inv in E. destruct E as (b1 & r & -> & H1 & E). cbn [List.length] in L.
    refine (K _ r t _ _ E [b; b1] _); [lia|left; lia|]. rewrite encode1_2 by lia. do 2 f_equal; [lia|f_equal; lia]. }
  assert (T3 : forall lo hi a, b = 224 + a -> 0 <= a <= 15 -> 128 <= lo -> hi <= 191 -> 2048 <= (a * 64 + (lo - 128)) * 64 ->
      ((a * 64 + (hi - 128)) * 64 + 63 < 55296 \/ 57344 <= (a * 64 + (lo - 128)) * 64) ->
      utf8 2 lo hi a l = Some t -> Forall scalar t /\ b :: l = encode t).
  { intros lo hi a -> Ha Hlo Hhi Hm Hs E2. apply utf8_S_inv in E2. destruct E2 as (b1 & r1 & -> & H1 & E2).
    apply utf8_S_inv in E2. destruct E2 as (b2 & r & -> & H2 & E2). cbn [List.length] in L.
    refine (K _ r t _ _ E2 [224 + a; b1; b2] _); [lia| |].
    - destruct Hs; [left; lia|right; lia].
    - rewrite encode1_3 by lia. repeat (f_equal; try lia). }
  assert (T4 : forall lo hi a, b = 240 + a -> 0 <= a <= 4 -> 128 <= lo -> hi <= 191 -> 65536 <= ((a * 64 + (lo - 128)) * 64) * 64 ->
      (((a * 64 + (hi - 128)) * 64 + 63) * 64 + 63 <= 1114111) ->
      utf8 3 lo hi a l = Some t -> Forall scalar t /\ b :: l = encode t).
  { intros lo hi a -> Ha Hlo Hhi Hm Hs E2. apply utf8_S_inv in E2. destruct E2 as (b1 & r1 & -> & H1 & E2).
    apply utf8_S_inv in E2. destruct E2 as (b2 & r2 & -> & H2 & E2).
    apply utf8_S_inv in E2. destruct E2 as (b3 & r & -> & H3 & E2). cbn [List.length] in L.
    refine (K _ r t _ _ E2 [240 + a; b1; b2; b3] _); [lia| |].
    - right; lia.
    - rewrite encode1_4 by lia. repeat (f_equal; try lia). }
  destruct (Z.eqb_spec b 224); [apply (T3 160 191 0); auto; lia|].
  destruct (Z.eqb_spec b 237); [apply (T3 128 159 13); auto; lia|].
  destruct (Z.ltb_spec b 240).
  { apply (T3 128 191 (b - 224)); auto; lia. }
  destruct (Z.eqb_spec b 240); [apply (T4 144 191 0); auto; lia|].
  destruct (Z.ltb_spec b 244); [apply (T4 128 191 (b - 240)); auto; lia|].
  destruct (Z.eqb_spec b 244); [apply (T4 128 143 4); auto; lia|]. discriminate.
Qed.
Lemma decode_sound l t : decode l = Some t -> Forall scalar t /\ l = encode t.
Proof. apply (decode_sound_n (List.length l)). lia. Qed.
Lemma decode_none l : decode l = None <-> ~ exists t, Forall scalar t /\ l = encode t.
Proof.
  split.
  - intros D (t & F & ->). rewrite decode_encode in D by auto. discriminate.
  - intros N. destruct (decode l) as [t|] eqn:E; auto. exfalso. apply N. exists t. apply decode_sound, E.
Qed.
Lemma decode_nl x : decode (x ++ [10]) = None <-> decode x = None.
Proof.
  rewrite !decode_none. split; intros N (t & F & E); apply N.
  - exists (t ++ [10]). split; [apply Forall_app; split; auto; constructor; [left; lia|constructor]|].
    subst. unfold encode. rewrite flat_map_app. reflexivity.
  - destruct (exists_last (l := t)) as (t' & c & ->). { intros ->. destruct x; discriminate. }
    apply Forall_app in F. destruct F as [F Fc]. inversion Fc as [|? ? Sc _]; subst. exists t'. split; auto.
    unfold encode in *. rewrite flat_map_app in E. cbn in E. rewrite app_nil_r in E.
    assert (H : encode1 c = [c] /\ c = 10).
    { assert (L : last (flat_map encode1 t' ++ encode1 c) 0 = 10) by (rewrite <- E; apply last_last).
      assert (G : forall (u v : list Z) d, v <> [] -> last (u ++ v) d = last v d).
      { induction u as [|y u IHu]; intros v d Nv; auto. cbn [app]. rewrite <- (IHu v d Nv).
        destruct (u ++ v) eqn:Q; auto. destruct u, v; try discriminate; congruence. }
      rewrite G in L by (destruct (encode1_cons c) as (y & z & ->); discriminate).
      revert L. unfold encode1. pose proof (Z.mod_pos_bound c 64 ltac:(lia)).
      destruct (Z.ltb_spec c 128); [cbn; intros ->; auto|].
      destruct (c <? 2048); [|destruct (c <? 65536)]; cbn [last]; intros L; exfalso; lia. }
    destruct H as [H ->]. rewrite H in E. apply app_inj_tail in E. apply E.
Qed.
