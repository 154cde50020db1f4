(** The text of remote exceptions: _send_error and the end of _process_one (server.py 298-343),
    RemoteCallException (client.py 553-555, 637-645), and what becomes of the server when the text cannot be
    encoded (server.py 444-454).

    Text is a list of code points.  msgpack (library) encodes str as UTF-8 and raises UnicodeEncodeError for
    surrogates; json (library) escapes them.

    Simplified: the lines of tracebacks are given; every exception has a str; syntax errors, whose last lines
    look different, are left out. *)
From Verif Require Import Py.
Local Open Scope N_scope.

(** str (library), in server.py 326-329 and client.py 639-644 *)
Definition text := list N.
(** literals of server.py 326-328 and client.py 643 *)
Definition lit (s : string) : text := map N_of_ascii (list_ascii_of_string s).
(** code points without UTF-8 (library), relevant at server.py 342 *)
Definition surrogate (c : N) : bool := (55296 <=? c) && (c <=? 57343).
(** str.encode('utf-8') succeeds (library), relevant at server.py 342 *)
Definition encodable (t : text) : bool := forallb (fun c => negb (surrogate c)) t.

(** an exception: of user code, with the module (with a dot; nothing for builtins) and name of its class and
    its str; or raised by a client (client.py 554) *)
Inductive pexc := Plain (mdl cls msg : text) | Remote (type_str : text) (tb : list text).
(** str(e): client.py 642-644 *)
Definition str_exc (e : pexc) : text :=
  match e with
  | Plain _ _ m => m
  | Remote _ tb => (lit (String "010" "===> Remote exception was:") ++ [10] ++ List.concat tb)%list
  end.
(** exc[0].__name__ (server.py 330) *)
Definition cls_of (e : pexc) : text := match e with Plain _ c _ => c | Remote _ _ => lit "RemoteCallException" end.
(** the name in a traceback (library), server.py 329 *)
Definition qual_of (e : pexc) : text :=
  match e with Plain m c _ => (m ++ c)%list | Remote _ _ => lit "teleprox.client.RemoteCallException" end.
(** the last line of traceback.format_exception (library), server.py 329 *)
Definition last_line (e : pexc) : text :=
  match str_exc e with [] => (qual_of e ++ [10])%list | m => (qual_of e ++ lit ": " ++ m ++ [10])%list end.
(** one server on the way: the name of its client, the number of the request, traceback.format_stack(), the
    lines of the traceback before the last (server.py 326-329) *)
Record hop := mkHop { h_caller : text; h_req : text; h_stack : list text; h_frames : list text }.
(** exc_str: server.py 326-329 *)
Definition transcript (h : hop) (e : pexc) : list text :=
  ([(lit "Error while processing request " ++ h_caller h ++ lit " [" ++ h_req h ++ lit "]: ")%list] ++ h_stack h ++
   [(lit " < exception caught here >" ++ [10])%list] ++ h_frames h ++ [last_line e])%list.
(** the client's serializer (server.py 339) *)
Inductive fmt := Msgpack | Json.
(** dumps (server.py 342) of the error succeeds *)
Definition dumps_ok (f : fmt) (e : text) (tb : list text) : bool :=
  match f with Json => true | Msgpack => encodable e && forallb encodable tb end.
(** server.py 325-343, client.py 553-555: what the client raises, unless _send_error raises *)
Definition reply (f : fmt) (h : hop) (e : pexc) : option pexc :=
  if dumps_ok f (cls_of e) (transcript h e) then Some (Remote (cls_of e) (transcript h e)) else None.

(** a server: whether its loop goes on (server.py 444-454), the errors it has answered with, by request *)
Record esrv := mkES { es_alive : bool; es_out : list (nat * pexc) }.
(** a request whose action raises [e]: server.py 294-315 *)
Record ereq := mkER { er_id : nat; er_fmt : fmt; er_hop : hop; er_exc : pexc }.
(** run_forever (server.py 452-454) with one such request: _send_error is not inside a try *)
Definition eserve (s : esrv) (r : ereq) : esrv :=
  if es_alive s then
    match reply (er_fmt r) (er_hop r) (er_exc r) with
    | Some e => mkES true (es_out s ++ [(er_id r, e)])%list
    | None => mkES false (es_out s)
    end
  else s.
(** server.py 452-454 *)
Definition eserve_all (s : esrv) (rs : list ereq) : esrv := fold_left eserve rs s.
