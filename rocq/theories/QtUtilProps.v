(** Properties C54, C95, C96: choice of a Qt library. *)
From Verif Require Import Py QtUtilModel QtUtilSpec QtUtilProofs.

(** C54.  First call in a process, after user code imported the modules [us].  A library
    loaded before teleprox is the one used (the first in the documented order if there are
    several), whatever is imported afterwards ... *)
Theorem C54_uses_imported_before :
  forall e mods us lib q, first_of (loaded mods) documented lib -> works e lib ->
  snd (import_qt e (fst (urun (start mods) (users us))) q) = chosen lib q.
Proof.
  intros e mods us lib q F W. rewrite urun_users, (start_loaded _ _ F). unfold import_qt, chosen. cbn [u_have u_lib u_ns u_mods].
  destruct (load_ok e (Some true) lib None (rev us ++ mods) W) as (m & L).
  destruct q as [l|]; [destruct (String.eqb l lib); cbn [negb]|]; rewrite ?L; reflexivity.
Qed.
Print Assumptions C54_uses_imported_before.
(** ... one loaded between importing teleprox and the first call likewise ... *)
Theorem C54_uses_imported :
  forall e mods us lib q, (forall l, ~ loaded mods l) -> first_of (loaded (us ++ mods)) documented lib -> works e lib ->
  snd (import_qt e (fst (urun (start mods) (users us))) q) = chosen lib q.
Proof.
  intros e mods us lib q N F W. rewrite urun_users, (start_none _ N). unfold import_qt, check_qt_imported, chosen. cbn [u_have u0 u_mods u_ns u_lib].
  rewrite (find_first (is_imported (rev us ++ mods)) (loaded (us ++ mods)) _ lib); auto.
  2:{ intros y. rewrite is_imported_spec. apply loaded_rev. }
  cbn [u_have u_lib u_ns].
  destruct (load_ok e (Some true) lib None (rev us ++ mods) W) as (m & L).
  destruct q as [l|]; [destruct (String.eqb l lib); cbn [negb]|]; rewrite ?L; reflexivity.
Qed.
Print Assumptions C54_uses_imported.
(** ... otherwise the first importable one of the order, or the one asked for *)
Theorem C54_first_importable :
  forall e mods q lib, (forall l, ~ loaded mods l) ->
  first_of (fun l => e l "QtCore" = true) (match q with None => documented | Some l => [l] end) lib -> works e lib ->
  snd (import_qt e (start mods) q) = Ok (full lib).
Proof.
  intros e mods q lib N F W. rewrite (start_none _ N). unfold import_qt, check_qt_imported. cbn [u_have u0 u_mods u_ns u_lib].
  rewrite (find_none_all _ _ _ (is_imported_spec mods)) by (intros y _ H; exact (N y H)). cbn [u_have u_lib u_ns u_mods].
  rewrite (first_importable_spec e _ lib None mods (Some false) None); auto.
  2:{ intros y _ H. apply (N y). exists "QtCore". cbn. auto. }
  cbn [u_have]. destruct (load_ok e (Some true) lib None ((lib, "QtCore") :: mods) W) as (m & L). rewrite L. reflexivity.
Qed.
Print Assumptions C54_first_importable.
(** none importable: ImportError *)
Theorem C54_none_importable :
  forall e mods, (forall l, ~ loaded mods l) -> (forall l, In l documented -> e l "QtCore" = false) ->
  snd (import_qt e (start mods) None) = Err ImportError.
Proof.
  intros e mods N F. rewrite (start_none _ N). unfold import_qt, check_qt_imported. cbn [u_have u0 u_mods u_ns u_lib].
  rewrite (find_none_all _ _ _ (is_imported_spec mods)) by (intros y _ H; exact (N y H)). cbn [u_have u_lib u_ns u_mods].
  assert (M : forall y, in_mods mods y "QtCore" = false).
  { intros y. destruct (in_mods mods y "QtCore") eqn:E; auto. apply in_mods_spec in E. destruct (N y). exists "QtCore". cbn. auto. }
  assert (G : forall libs s, (forall y, In y libs -> e y "QtCore" = false) -> u_mods s = mods -> first_importable e s libs = s).
  { clear - M. induction libs as [|l libs IH]; intros s H E; cbn [first_importable]; auto.
    unfold import_module. rewrite E, M, H by (left; reflexivity). cbn [orb]. apply IH; auto. intros y I. apply H. right. exact I. }
  rewrite G; auto.
Qed.
Print Assumptions C54_none_importable.
(** From the first success on, in any process history: every call returns that same
    namespace, or refuses if another library is asked for. *)
Theorem C54_same_ever_after :
  forall mods os e q s1 n, import_qt e (fst (urun (start mods) os)) q = (s1, Ok n) ->
  exists lib, (forall l, q = Some l -> lib = l) /\
  forall os' e' q', snd (import_qt e' (fst (urun s1 os')) q') =
    match q' with Some l => if String.eqb l lib then Ok n else Err ValueError | None => Ok n end.
Proof.
  intros mods os e q s1 n E.
  destruct (import_ok_settled e _ q s1 n (urun_sane os _ (sane_start mods)) E) as (lib & S & Q).
  exists lib. split; auto. intros os' e' q'. rewrite (settled_import e' _ lib n q' (urun_settled lib n os' s1 S)). reflexivity.
Qed.
Print Assumptions C54_same_ever_after.

Definition only (libs : list string) : env := fun l _ => existsb (String.eqb l) libs.
Example C54_case :
  snd (import_qt (only ["PySide2"; "PyQt5"]) (start []) None) = Ok (full "PyQt5") /\
  snd (import_qt (only ["PySide2"; "PyQt5"]) (start [("PySide2", "QtGui")]) None) = Ok (full "PySide2") /\
  snd (import_qt (only ["PySide2"; "PyQt5"]) (start [("PySide2", "QtGui")]) (Some "PyQt5")) = Err ValueError /\
  first_of (loaded [("PySide2", "QtGui")]) documented "PySide2" /\ works (only ["PySide2"; "PyQt5"]) "PySide2".
Proof.
  repeat split; try reflexivity.
  exists ["PyQt6"; "PySide6"; "PyQt5"], []. split; [reflexivity|]. split.
  - exists "QtGui". cbn. auto.
  - intros y I (sub & _ & [H|[]]). injection H as <- _. cbn in I. repeat (destruct I as [I|I]; [discriminate|]). exact I.
Qed.

(** C95.  After a call that failed, a library imported by the user is not noticed:
    another one is used. *)
Theorem C95_import_after_failure_ignored_refuted :
  exists e, works e "PySide2" /\
  let '(s, rs) := urun (start []) [UImport (fun _ _ => false) None; UUser "PySide2" "QtCore"; UImport e None] in
  rs = [Some (Err ImportError); None; Some (Ok (full "PyQt5"))].
Proof. exists (only ["PySide2"; "PyQt5"]). split; [|reflexivity]. intros sub _. reflexivity. Qed.
Print Assumptions C95_import_after_failure_ignored_refuted.

(** C96.  If a library can be found but not loaded completely, the first call fails and
    the next one returns an incomplete namespace. *)
Theorem C96_incomplete_namespace_refuted :
  forall e lib, In lib documented -> (forall l sub, e l sub = String.eqb l lib && String.eqb sub "QtCore") ->
  let '(s, rs) := urun (start []) [UImport e None; UImport e None] in
  rs = [Some (Err ImportError); Some (Ok (lib, ["QtCore"]))].
Proof.
  intros e lib I E. cbn in I.
  destruct I as [<-|[<-|[<-|[<-|[]]]]]; unfold urun, ustep, import_qt, check_qt_imported, first_importable, import_module, load, fill_ns;
    cbn; rewrite ?E; cbn; rewrite ?E; cbn; unfold import_module; cbn; rewrite ?E; cbn; reflexivity.
Qed.
Print Assumptions C96_incomplete_namespace_refuted.
Example C96_case : snd (urun (start []) (repeat (UImport (fun l s => String.eqb l "PyQt5" && String.eqb s "QtCore") None) 2)) =
  [Some (Err ImportError); Some (Ok ("PyQt5", ["QtCore"]))].
Proof. reflexivity. Qed.
