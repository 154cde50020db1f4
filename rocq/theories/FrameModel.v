(** Request framing between client and server, and the client's socket identity:
    teleprox/client.py 103-105, 300-303 and teleprox/server.py 238-250.

    A Python str is represented by its UTF-8 bytes, so [encode()] and a successful
    [decode()] are the identity; [utf8] says which byte strings are valid UTF-8. *)
From Verif Require Import Py SerModel.
From Coq Require Import DecimalString.

(** Serialized data; the byte formats themselves are not modelled (see SerModel).
    (what recv_multipart gives, server.py 239-250; client.py 297-298) *)
Inductive payload :=
| PEmpty                 (* b'' *)
| PPack (w : wire)       (* produced by msgpack *)
| PJson (j : json)       (* produced by json *)
| PJunk.                 (* any other bytes *)

(** One multipart message on its way to the server: the sender's identity (added
    by the ROUTER socket) and five parts. (what recv_multipart gives, server.py 239-250; client.py 297-298) *)
Inductive part := PStr (s : string) | PData (p : payload).
(** what recv_multipart gives, server.py 239-250; client.py 297-298 *)
Definition frame := list part.

(** The dictionary built by server.py 243-249. *)
Record msg := mkMsg { m_req : Z; m_action : string; m_rt : string; m_ser : string; m_opts : payload }.

(** client.py 300-303 *)
Definition client_frames (m : msg) : frame :=
  [PStr (str_of_Z (m_req m)); PStr (m_action m); PStr (m_rt m); PStr (m_ser m); PData (m_opts m)].

(** *** int(bytes)
    Library behaviour: surrounding ASCII white space, an optional sign, decimal
    digits with single underscores between digits; ValueError otherwise. *)
(** pieces of int(bytes), server.py 244 (library) *)
Definition is_space (c : ascii) : bool :=
  let n := nat_of_ascii c in ((n =? 32) || ((9 <=? n) && (n <=? 13)))%nat.
(** pieces of int(bytes), server.py 244 (library) *)
Definition is_digit (c : ascii) : bool :=
  let n := nat_of_ascii c in ((48 <=? n) && (n <=? 57))%nat.
(** pieces of int(bytes), server.py 244 (library) *)
Fixpoint lstrip (l : list ascii) : list ascii :=
  match l with [] => [] | c :: r => if is_space c then lstrip r else l end.
(** pieces of int(bytes), server.py 244 (library) *)
Definition strip (l : list ascii) : list ascii := rev (lstrip (rev (lstrip l))).
(** drop underscores that stand between two digits (pieces of int(bytes), server.py 244 (library)) *)
Fixpoint drop_us (after_digit : bool) (l : list ascii) : list ascii :=
  match l with
  | [] => []
  | c :: r =>
      match r with
      | d :: _ => if after_digit && Ascii.eqb c "_" && is_digit d then drop_us false r
                  else c :: drop_us (is_digit c) r
      | [] => [c]
      end
  end.
(** pieces of int(bytes), server.py 244 (library) *)
Definition py_int (s : string) : res Z :=
  let l := drop_us false (strip (list_ascii_of_string s)) in
  let l := match l with
           | c :: ((d :: _) as r) => if Ascii.eqb c "+" && is_digit d then r else l
           | _ => l
           end in
  match NilZero.int_of_string (string_of_list_ascii l) with
  | Some i => Ok (Z.of_int i)
  | None => Err ValueError
  end.

Section Read.
  Variable utf8 : string -> bool.

  (** bytes.decode() (server.py 245-248 (library)) *)
  Definition py_decode (s : string) : res string :=
    if utf8 s then Ok s else Err UnicodeDecodeError.

  (** server.py 238-250 [_read_one]; [name] is the sender's identity.  A part that
      holds serialized data where text is expected, or the other way round, is
      treated as undecodable text / as junk. *)
  Definition text (p : part) : res string :=
    match p with PStr s => py_decode s | PData _ => Err UnicodeDecodeError end.
  (** the fifth part, server.py 249 *)
  Definition data (p : part) : payload := match p with PData p => p | PStr "" => PEmpty | PStr _ => PJunk end.
  (** server.py 238-250 *)
  Definition read_one (name : string) (f : frame) : res (string * msg) :=
    match f with
    | [r; a; t; s; o] =>
        bind (match r with PStr x => py_int x | PData _ => Err ValueError end) (fun req =>
        bind (text a) (fun act => bind (text t) (fun rt => bind (text s) (fun ser =>
          Ok (name, mkMsg req act rt ser (data o))))))
    | _ => Err ValueError      (* wrong number of values to unpack *)
    end.
End Read.

(** client.py 104-105: socket identity; host, process and thread names come from
    teleprox.log (log/remote.py 31-66). *)
Definition client_name (host process thread addr : string) : string :=
  (host ++ "." ++ process ++ "." ++ thread ++ ":" ++ addr)%string.
