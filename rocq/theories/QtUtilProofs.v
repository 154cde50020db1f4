(** Proofs about the choice of a Qt library. *)
From Verif Require Import Py QtUtilModel QtUtilSpec.

Lemma in_mods_spec mods lib sub : in_mods mods lib sub = true <-> In (lib, sub) mods.
Proof.
  unfold in_mods. rewrite existsb_exists. split.
  - intros ((a & b) & I & E). cbn in E. apply andb_prop in E. destruct E as [E1 E2].
    apply String.eqb_eq in E1, E2. subst. exact I.
  - intros I. exists (lib, sub). split; auto. cbn. rewrite !String.eqb_refl. reflexivity.
Qed.
Lemma is_imported_spec mods lib : is_imported mods lib = true <-> loaded mods lib.
Proof.
  unfold is_imported, loaded. rewrite !orb_true_iff, !in_mods_spec. split.
  - intros [[H|H]|H]; eexists; split; [|exact H| |exact H| |exact H]; cbn; auto.
  - cbn. intros (sub & [<-|[<-|[<-|[]]]] & H); auto.
Qed.

Lemma find_first {A} (f : A -> bool) (P : A -> Prop) l x : (forall y, f y = true <-> P y) -> first_of P l x -> find f l = Some x.
Proof.
  intros F (a & b & -> & Px & N). induction a as [|y a IH]; cbn.
  - apply F in Px. rewrite Px. reflexivity.
  - destruct (f y) eqn:E. { exfalso. apply (N y); [left; reflexivity|]. apply F, E. }
    apply IH. intros z I. apply N. right. exact I.
Qed.
Lemma find_none_all {A} (f : A -> bool) (P : A -> Prop) l : (forall y, f y = true <-> P y) -> (forall y, In y l -> ~ P y) -> find f l = None.
Proof.
  intros F N. induction l as [|y l IH]; cbn; auto. destruct (f y) eqn:E.
  - exfalso. apply (N y); [left; reflexivity|]. apply F, E.
  - apply IH. intros z I. apply N. right. exact I.
Qed.

Lemma import_ok e s lib sub : e lib sub = true ->
  import_module e s lib sub = (mkU (u_have s) (u_lib s) (u_ns s) ((lib, sub) :: u_mods s), Ok tt).
Proof. intros E. unfold import_module. rewrite E, orb_true_r. reflexivity. Qed.

Lemma load_ok e h lib n mods : works e lib -> exists mods',
  load e (mkU h (Some lib) n mods) = (mkU h (Some lib) (Some (full lib)) mods', Ok (full lib)).
Proof.
  intros W. unfold load. cbn [u_lib fill_ns u_have u_ns u_mods].
  rewrite import_ok by (apply W; cbn; auto). cbn [u_have u_lib u_ns u_mods fill_ns app].
  rewrite import_ok by (apply W; cbn; auto). cbn [u_have u_lib u_ns u_mods fill_ns app].
  rewrite import_ok by (apply W; cbn; auto). cbn [u_have u_lib u_ns u_mods fill_ns app].
  eexists. reflexivity.
Qed.

Lemma first_importable_spec e libs lib n mods h l0 :
  (forall y, In y libs -> ~ In (y, "QtCore") mods) -> first_of (fun l => e l "QtCore" = true) libs lib ->
  first_importable e (mkU h l0 n mods) libs = mkU (Some true) (Some lib) n ((lib, "QtCore") :: mods).
Proof.
  intros M (a & b & -> & E & N). induction a as [|y a IH]; cbn [app first_importable].
  - rewrite import_ok by exact E. reflexivity.
  - unfold import_module. cbn [u_mods].
    destruct (in_mods mods y "QtCore") eqn:I. { exfalso. apply in_mods_spec in I. apply (M y); auto. left. reflexivity. }
    destruct (e y "QtCore") eqn:Ey. { exfalso. apply (N y); auto. left. reflexivity. }
    cbn [orb]. apply IH.
    + intros z Z. apply M. right. exact Z.
    + intros z Z. apply N. right. exact Z.
Qed.

(** after a success *)
Definition settled (lib : string) (n : ns) (s : qust) : Prop := u_have s = Some true /\ u_lib s = Some lib /\ u_ns s = Some n.
Lemma settled_import e s lib n q : settled lib n s -> import_qt e s q =
  (s, match q with Some l => if String.eqb l lib then Ok n else Err ValueError | None => Ok n end).
Proof.
  destruct s as [h l0 n0 mods]. intros (H & L & N). cbn in H, L, N. subst. unfold import_qt. cbn [u_have u_lib u_ns].
  destruct q as [l|]; [destruct (String.eqb l lib)|]; reflexivity.
Qed.
Lemma settled_step lib n s o : settled lib n s -> settled lib n (fst (ustep s o)).
Proof.
  intros S. destruct o as [e q|l sub]; cbn [ustep].
  - rewrite (settled_import e s lib n q S). exact S.
  - exact S.
Qed.
Lemma fill_ns_settled e lib subs : forall s got s' n, u_have s = Some true -> u_lib s = Some lib -> u_ns s = Some (lib, got) ->
  fill_ns e s lib subs got = (s', Ok n) -> settled lib n s'.
Proof.
  induction subs as [|sub subs IH]; intros s got s' n H L N; cbn [fill_ns].
  - intros [= <- <-]. split; auto.
  - unfold import_module. destruct (_ || _); [|discriminate]. cbn [u_have u_lib u_mods]. apply IH; auto.
Qed.
Definition sane (s : qust) : Prop :=
  (u_have s = Some true -> u_lib s <> None) /\
  (forall n, u_ns s = Some n -> u_have s = Some true /\ u_lib s = Some (fst n)).
Lemma load_settled e s s' n : u_have s = Some true -> load e s = (s', Ok n) -> exists lib, settled lib n s'.
Proof.
  unfold load. destruct (u_lib s) as [lib|] eqn:L; [|discriminate]. intros H E. exists lib.
  eapply fill_ns_settled; [| | |exact E]; auto.
Qed.
Lemma fill_ns_fst e lib subs : forall s got s' n, fill_ns e s lib subs got = (s', Ok n) -> fst n = lib.
Proof.
  induction subs as [|sub subs IH]; intros s got s' n; cbn [fill_ns].
  - intros [= <- <-]. reflexivity.
  - destruct (import_module e s lib sub) as [s1 [u|x]]; [|discriminate]. apply IH.
Qed.
Lemma fill_ns_sane e lib subs : forall s got, u_have s = Some true -> u_lib s = Some lib -> u_ns s = Some (lib, got) ->
  sane (fst (fill_ns e s lib subs got)).
Proof.
  induction subs as [|sub subs IH]; intros s got H L N; cbn [fill_ns].
  - cbn. split; [congruence|]. intros n E. rewrite N in E. injection E as <-. auto.
  - unfold import_module. destruct (_ || _).
    + apply IH; auto.
    + cbn. split; [congruence|]. intros n E. rewrite N in E. injection E as <-. auto.
Qed.
Lemma first_importable_sane e libs : forall s, u_ns s = None -> sane s -> sane (first_importable e s libs) /\ u_ns (first_importable e s libs) = None.
Proof.
  induction libs as [|l libs IH]; intros s N S; cbn [first_importable]; auto.
  unfold import_module. destruct (_ || _); auto. cbn [u_ns u_mods]. rewrite N. split; auto. split; cbn; [discriminate|]. discriminate.
Qed.
Lemma check_sane s : sane s -> sane (check_qt_imported s) /\ u_ns (check_qt_imported s) = u_ns s.
Proof.
  intros S. unfold check_qt_imported. destruct (u_have s) eqn:H; auto. destruct (find _ _) eqn:F; auto.
  split; auto. split; cbn; [discriminate|]. intros n E. destruct S as [_ S]. destruct (S n E). congruence.
Qed.
Lemma load_sane e s : sane s -> u_have s = Some true -> sane (fst (load e s)).
Proof.
  intros S H. unfold load. destruct (u_lib s) as [lib|] eqn:L; [|exact S]. apply fill_ns_sane; auto.
Qed.
Lemma import_sane e s q : sane s -> sane (fst (import_qt e s q)).
Proof.
  intros S. unfold import_qt.
  assert (S1 : sane (match u_have s with Some true => s | _ => check_qt_imported s end)).
  { destruct (u_have s) as [[]|]; auto; apply check_sane, S. }
  set (s1 := match u_have s with Some true => s | _ => check_qt_imported s end) in *. clearbody s1. clear s S. cbv zeta.
  destruct (match u_have s1, q, u_lib s1 with Some true, Some l, Some l' => negb (String.eqb l l') | _, _, _ => false end); [exact S1|].
  destruct (u_ns s1) eqn:N; [exact S1|].
  assert (K : sane (fst (let s := first_importable e (mkU (Some false) (u_lib s1) None (u_mods s1)) (match q with None => qt_lib_order | Some l => [l] end) in
          match u_have s with Some true => load e s | _ => (s, Err ImportError) end))).
  { cbv zeta. destruct (first_importable_sane e (match q with None => qt_lib_order | Some l => [l] end) (mkU (Some false) (u_lib s1) None (u_mods s1))) as [S2 N2]; auto.
    { split; cbn; discriminate. }
    destruct (u_have (first_importable _ _ _)) as [[]|] eqn:H2; auto. apply load_sane; auto. }
  destruct (u_have s1) as [[]|] eqn:H; auto. apply load_sane; auto.
Qed.
Lemma import_ok_settled e s q s' n : sane s -> import_qt e s q = (s', Ok n) -> exists lib, settled lib n s' /\ (forall l, q = Some l -> lib = l).
Proof.
  intros S. unfold import_qt.
  assert (S1 : sane (match u_have s with Some true => s | _ => check_qt_imported s end)).
  { destruct (u_have s) as [[]|]; auto; apply check_sane, S. }
  set (s1 := match u_have s with Some true => s | _ => check_qt_imported s end) in *. clearbody s1. clear s S. cbv zeta.
  destruct (match u_have s1, q, u_lib s1 with Some true, Some l, Some l' => negb (String.eqb l l') | _, _, _ => false end) eqn:C; [discriminate|].
  assert (Q : u_have s1 = Some true -> forall l l', q = Some l -> u_lib s1 = Some l' -> l' = l).
  { intros H l l' -> L. rewrite H, L in C. apply negb_false_iff, String.eqb_eq in C. congruence. }
  assert (LS : forall s2, u_have s2 = Some true -> load e s2 = (s', Ok n) -> exists lib, settled lib n s' /\ u_lib s2 = Some lib).
  { intros s2 H2 E. destruct (load_settled _ _ _ _ H2 E) as (lib & T). exists lib. split; auto.
    unfold load in E. destruct (u_lib s2) as [l2|]; [|discriminate].
    assert (settled l2 n s') by (eapply fill_ns_settled; [| | |exact E]; auto). destruct T as (_ & T & _), H as (_ & T' & _). congruence. }
  destruct (u_ns s1) as [n1|] eqn:N.
  - intros [= <- <-]. destruct S1 as [_ S1]. destruct (S1 _ N) as [H L]. exists (fst n1). split; [split; auto|].
    intros l E. eapply Q; eauto.
  - assert (K : (let s := first_importable e (mkU (Some false) (u_lib s1) None (u_mods s1)) (match q with None => qt_lib_order | Some l => [l] end) in
          match u_have s with Some true => load e s | _ => (s, Err ImportError) end) = (s', Ok n) ->
          exists lib, settled lib n s' /\ (forall l, q = Some l -> lib = l)).
    { cbv zeta. destruct (u_have (first_importable _ _ _)) as [[]|] eqn:H2; try discriminate. intros E.
      destruct (LS _ H2 E) as (lib & T & L2). exists lib. split; auto. intros l ->. cbn [first_importable] in *.
      unfold import_module in *. destruct (_ || _); cbn in *; congruence. }
    destruct (u_have s1) as [[]|] eqn:H; auto. intros E. destruct (LS _ H E) as (lib & T & L). exists lib. split; auto.
Qed.
Lemma urun_sane os s : sane s -> sane (fst (urun s os)).
Proof.
  revert s. induction os as [|o os IH]; intros s S; cbn [urun]; auto.
  assert (S1 : sane (fst (ustep s o))).
  { destruct o as [e q|l sub]; cbn [ustep].
    - pose proof (import_sane e s q S) as I. destruct (import_qt e s q). exact I.
    - exact S. }
  destruct (ustep s o) as [s1 x]. specialize (IH s1 S1). destruct (urun s1 os). exact IH.
Qed.
Lemma sane_start mods : sane (start mods).
Proof. apply check_sane. split; cbn; discriminate. Qed.
Lemma urun_users us : forall s, fst (urun s (users us)) = mkU (u_have s) (u_lib s) (u_ns s) (rev us ++ u_mods s).
Proof.
  induction us as [|(l & sub) us IH]; intros s; cbn [users map urun ustep fst snd]. { destruct s; reflexivity. }
  fold (users us). specialize (IH (mkU (u_have s) (u_lib s) (u_ns s) ((l, sub) :: u_mods s))).
  destruct (urun _ (users us)) as [s1 xs]. cbn [fst u_have u_lib u_ns u_mods] in *. rewrite IH. cbn [rev]. rewrite <- app_assoc. reflexivity.
Qed.
Lemma start_loaded mods lib : first_of (loaded mods) qt_lib_order lib -> start mods = mkU (Some true) (Some lib) None mods.
Proof. intros F. unfold start, check_qt_imported. cbn [u0 u_have u_mods u_ns]. rewrite (find_first _ _ _ _ (is_imported_spec mods) F). reflexivity. Qed.
Lemma start_none mods : (forall l, ~ loaded mods l) -> start mods = u0 mods.
Proof. intros N. unfold start, check_qt_imported. cbn [u0 u_have u_mods]. rewrite (find_none_all _ _ _ (is_imported_spec mods)); auto. Qed.
Lemma loaded_rev a b lib : loaded (rev a ++ b) lib <-> loaded (a ++ b) lib.
Proof. unfold loaded. split; intros (sub & I & H); exists sub; split; auto; rewrite in_app_iff in *; rewrite <- in_rev in *; exact H. Qed.
Lemma urun_settled lib n os s : settled lib n s -> settled lib n (fst (urun s os)).
Proof.
  revert s. induction os as [|o os IH]; intros s S; cbn [urun]; auto.
  pose proof (settled_step lib n s o S) as S1. destruct (ustep s o) as [s1 x]. specialize (IH s1 S1). destruct (urun s1 os). exact IH.
Qed.
