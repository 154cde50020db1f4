(** RPCClient.check_address and check_tcp_port (teleprox/client.py 173-191, util.py 120-148), and
    what RPCClient() makes of the answer (client.py 126-130).  Characters are ASCII (simplified:
    in Python \d accepts the digits of other scripts too). *)
From Verif Require Import Py UtilModel.
Local Open Scope Z_scope.

(** characters of the pattern, client.py 185 *)
Definition newline : ascii := Ascii.ascii_of_nat 10.
(** characters of the pattern, client.py 185 *)
Definition colon : ascii := Ascii.ascii_of_nat 58.
(** characters of the pattern, client.py 185 *)
Definition is_digit (c : ascii) : bool := match digit c with Some _ => true | None => false end.

(** ** The regular expression ^tcp://(.+):(\d+)$ (client.py 185; library behaviour) *)
(** (\d+)$: digits up to the end; $ also matches before a newline at the end (client.py 185) *)
Fixpoint re_digits (s : string) : option string :=
  match s with
  | EmptyString => Some EmptyString
  | String c EmptyString =>
      if is_digit c then Some (String c EmptyString) else if Ascii.eqb c newline then Some EmptyString else None
  | String c r => if is_digit c then match re_digits r with Some d => Some (String c d) | None => None end else None
  end.
(** the group of digits, at least one, client.py 185 *)
Definition re_port (s : string) : option string :=
  match re_digits s with Some EmptyString => None | x => x end.
(** the host (possibly empty here), a colon and the port; the longest host first; a dot does
    not match a newline (client.py 185) *)
Fixpoint re_host (s : string) : option (string * string) :=
  match s with
  | EmptyString => None
  | String c r =>
      match (if Ascii.eqb c newline then None else re_host r) with
      | Some (h, d) => Some (String c h, d)
      | None => if Ascii.eqb c colon then match re_port r with Some d => Some (EmptyString, d) | None => None end else None
      end
  end.
(** the host has at least one character (client.py 185) *)
Definition re_host1 (s : string) : option (string * string) :=
  match s with
  | EmptyString => None
  | String c r => if Ascii.eqb c newline then None else match re_host r with Some (h, d) => Some (String c h, d) | None => None end
  end.
(** the literal text the pattern begins with, client.py 185 *)
Fixpoint strip (p s : string) : option string :=
  match p, s with
  | EmptyString, _ => Some s
  | String a p, String b s => if Ascii.eqb a b then strip p s else None
  | _, _ => None
  end.
(** re.match of the whole pattern, client.py 185 *)
Definition re_match (s : string) : option (string * string) :=
  match strip "tcp://" s with Some r => re_host1 r | None => None end.

(** ** The network: what the operating system answers *)
(** the outcomes of socket.connect, util.py 140-148 *)
Inductive found := Found | Unknown (* gaierror *) | BadName (e : exn) (* the name cannot be encoded *).
(** the outcomes of socket.connect, util.py 140-148 *)
Inductive attempt := Accepted | TimedOut | Refused | OtherOSError.
(** what lies behind socket.connect, util.py 140-148 *)
Record net := mkNet { n_find : string -> found; n_connect : string -> Z -> attempt }.

(** socket.connect((host, port)) for AF_INET (CPython getsockaddrarg): the port must be a C int,
    then the name is looked up, then the port must be below 65536 *)
Definition max_int : Z := 2147483647.
(** the largest port getsockaddrarg accepts, for util.py 140-148 *)
Definition max_port : Z := 65535.
(** socket.connect((host, port)), util.py 140-148 *)
Definition connect (n : net) (host : string) (port : Z) : res attempt :=
  match n_find n host with
  | BadName e => Err e
  | f =>
      if max_int <? port then Err (UserExc "OverflowError") else
      match f with
      | Unknown => Ok OtherOSError
      | _ => if max_port <? port then Err (UserExc "OverflowError") else Ok (n_connect n host port)
      end
  end.

(** the answers of check_tcp_port, util.py 120-148 *)
Inductive status := SOpen | SClosed | STimeout.
(** util.py 120-148 [check_tcp_port] (not on Windows) *)
Definition check_tcp_port (n : net) (host : string) (port : Z) : res status :=
  match connect n host port with
  | Err e => Err e                       (* neither socket.timeout nor OSError *)
  | Ok Accepted => Ok SOpen
  | Ok TimedOut => Ok STimeout
  | Ok Refused | Ok OtherOSError => Ok SClosed
  end.
(** client.py 173-191 [check_address] *)
Definition check_address (n : net) (address : string) : res (option status) :=
  match re_match address with
  | None => Ok None
  | Some (h, d) => bind (to_int d) (fun port => bind (check_tcp_port n h port) (fun x => Ok (Some x)))
  end.
(** client.py 128-130: RPCClient() goes on, or fails *)
Definition client_check (n : net) (address : string) : res unit :=
  bind (check_address n address) (fun x => match x with Some SClosed => Err ConnectionRefusedError | _ => Ok tt end).
