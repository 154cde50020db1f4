(** Choice of a Qt library: teleprox/qt_util.py.  [env lib sub] says whether the module
    lib.sub can be imported; it may differ from call to call.  A namespace is the library
    and the modules it was filled from.  Simplified: what else the modules define, and the
    aliases added at 70-86 (a KeyError there if 'pyqtSignal' is missing), are not modelled. *)
From Verif Require Import Py.

(** what importlib.import_module can import, qt_util.py 52, 63-67 *)
Definition env := string -> string -> bool.
(** qt_namespace, qt_util.py 62-71 *)
Definition ns := (string * list string)%type.
(** qt_util.py 6-8, 30 *)
Record qust := mkU { u_have : option bool; u_lib : option string; u_ns : option ns; u_mods : list (string * string) (* sys.modules *) }.
(** teleprox/qt_util.py 8 *)
Definition qt_lib_order : list string := ["PyQt6"; "PySide6"; "PyQt5"; "PySide2"].
(** teleprox/qt_util.py 6-7, 30: the initial values *)
Definition u0 (mods : list (string * string)) : qust := mkU None None None mods.

(** teleprox/qt_util.py 20: membership in sys.modules *)
Definition in_mods (mods : list (string * string)) (lib sub : string) : bool :=
  existsb (fun m => String.eqb (fst m) lib && String.eqb (snd m) sub) mods.
(** teleprox/qt_util.py 20 *)
Definition is_imported (mods : list (string * string)) (lib : string) : bool :=
  in_mods mods lib "QtCore" || in_mods mods lib "QtGui" || in_mods mods lib "QtWidgets".
(** teleprox/qt_util.py 10-24 [check_qt_imported] *)
Definition check_qt_imported (s : qust) : qust :=
  match u_have s with
  | None => match find (is_imported (u_mods s)) qt_lib_order with
            | Some lib => mkU (Some true) (Some lib) (u_ns s) (u_mods s)
            | None => s
            end
  | _ => s
  end.
(** teleprox/qt_util.py 27: the check made when the module is imported *)
Definition start (mods : list (string * string)) : qust := check_qt_imported (u0 mods).
(** importlib.import_module (library), called at teleprox/qt_util.py 52, 63, 65, 67 *)
Definition import_module (e : env) (s : qust) (lib sub : string) : qust * res unit :=
  if in_mods (u_mods s) lib sub || e lib sub
  then (mkU (u_have s) (u_lib s) (u_ns s) ((lib, sub) :: u_mods s), Ok tt)
  else (s, Err ImportError).
(** teleprox/qt_util.py 50-57 *)
Fixpoint first_importable (e : env) (s : qust) (libs : list string) : qust :=
  match libs with
  | [] => s
  | lib :: r => match import_module e s lib "QtCore" with
                | (s, Ok _) => mkU (Some true) (Some lib) (u_ns s) (u_mods s)
                | (s, Err _) => first_importable e s r
                end
  end.
(** teleprox/qt_util.py 62-68: the namespace is stored first and filled afterwards *)
Fixpoint fill_ns (e : env) (s : qust) (lib : string) (subs got : list string) : qust * res ns :=
  match subs with
  | [] => (s, Ok (lib, got))
  | sub :: r =>
      match import_module e s lib sub with
      | (s, Ok _) => fill_ns e (mkU (u_have s) (u_lib s) (Some (lib, got ++ [sub])) (u_mods s)) lib r (got ++ [sub])
      | (s, Err x) => (s, Err x)
      end
  end.
(** teleprox/qt_util.py 62-63 *)
Definition load (e : env) (s : qust) : qust * res ns :=
  match u_lib s with
  | None => (s, Err TypeError)       (* cannot happen: HAVE_QT is set together with QT_LIB *)
  | Some lib => fill_ns e (mkU (u_have s) (u_lib s) (Some (lib, [])) (u_mods s)) lib ["QtCore"; "QtGui"; "QtWidgets"] []
  end.
(** teleprox/qt_util.py 31-88 [import_qt] *)
Definition import_qt (e : env) (s : qust) (qt_lib : option string) : qust * res ns :=
  let s := match u_have s with Some true => s | _ => check_qt_imported s end in
  let conflict := match u_have s, qt_lib, u_lib s with
                  | Some true, Some l, Some l' => negb (String.eqb l l')
                  | _, _, _ => false
                  end in
  if conflict then (s, Err ValueError)
  else match u_ns s with
  | Some n => (s, Ok n)
  | None =>
      let libs := match qt_lib with None => qt_lib_order | Some l => [l] end in
      match u_have s with
      | Some true => load e s
      | _ =>
          let s := first_importable e (mkU (Some false) (u_lib s) (u_ns s) (u_mods s)) libs in
          match u_have s with
          | Some true => load e s
          | _ => (s, Err ImportError)
          end
      end
  end.

(** What may happen in a process: a call of import_qt, or user code importing a module
    (calls of import_qt (qt_util.py 31-88), and imports by the user) *)
Inductive uop := UImport (e : env) (lib : option string) | UUser (lib sub : string).
(** calls of import_qt (qt_util.py 31-88), and imports by the user *)
Definition ustep (s : qust) (o : uop) : qust * option (res ns) :=
  match o with
  | UImport e l => let '(s, r) := import_qt e s l in (s, Some r)
  | UUser lib sub => (mkU (u_have s) (u_lib s) (u_ns s) ((lib, sub) :: u_mods s), None)
  end.
(** calls of import_qt (qt_util.py 31-88), and imports by the user *)
Fixpoint urun (s : qust) (os : list uop) : qust * list (option (res ns)) :=
  match os with
  | [] => (s, [])
  | o :: r => let '(s, x) := ustep s o in let '(s, xs) := urun s r in (s, x :: xs)
  end.
