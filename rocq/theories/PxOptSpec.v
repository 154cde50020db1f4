(** Specification vocabulary for the options of received proxies. *)
From Verif Require Import Py ObjTableModel SerModel.

(** the value an option has by itself *)
Definition default_value (k : string) : pyval :=
  if String.eqb k "sync" then VStr "sync"
  else if String.eqb k "timeout" then VInt 10
  else if String.eqb k "return_type" then VStr "auto"
  else if String.eqb k "defer_getattr" then VBool true
  else if String.eqb k "auto_delete" then VBool false
  else if String.eqb k "safe_print" then VBool true
  else VNone.
