(** Starting a process: teleprox/process.py 113-241 and teleprox/bootstrap.py, with the
    part of argparse (CPython 3.11, library) that reads the command line.  Strings are
    byte strings.  Simplified: conda_env, stdio redirection and the Windows branches are
    left out; bytes that cannot be decoded, and '\n' after a negative number, are not
    considered. *)
From Verif Require Import Py UtilModel UtilSpec.
Local Open Scope Z_scope.

(** ** Strings (library) *)
(** str.partition('='): [None] if there is no '=' (used by argparse and at bootstrap.py 25-28) *)
Fixpoint split_eq (s : string) : option (string * string) :=
  match s with
  | EmptyString => None
  | String "=" r => Some (EmptyString, r)
  | String c r => match split_eq r with Some (a, b) => Some (String c a, b) | None => None end
  end.
(** used by argparse and at bootstrap.py 25-28 *)
Fixpoint all_digits (s : string) : bool :=
  match s with EmptyString => true | String c r => match digit c with Some _ => all_digits r | None => false end end.
(** str.isdigit (used by argparse and at bootstrap.py 25-28) *)
Definition isdigit (s : string) : bool := match s with EmptyString => false | _ => all_digits s end.
(** \d*\.\d+ (used by argparse and at bootstrap.py 25-28) *)
Fixpoint dot_digits (s : string) : bool :=
  match s with
  | EmptyString => false
  | String "." r => isdigit r
  | String c r => match digit c with Some _ => dot_digits r | None => false end
  end.
(** '^-\d+$|^-\d*\.\d+$' (argparse 1386) *)
Definition negative_number (s : string) : bool :=
  match s with String "-" r => isdigit r || dot_digits r | _ => false end.
(** used by argparse and at bootstrap.py 25-28 *)
Definition upper_ascii (c : ascii) : ascii :=
  let n := nat_of_ascii c in if (97 <=? n)%nat && (n <=? 122)%nat then ascii_of_nat (n - 32) else c.
(** used by argparse and at bootstrap.py 25-28 *)
Fixpoint upper (s : string) : string :=
  match s with EmptyString => EmptyString | String c r => String (upper_ascii c) (upper r) end.
(** str(n) (process.py 156) *)
Definition str_int (n : Z) : string := if n <? 0 then String "-" (decimal (- n)) else decimal n.
(** getattr(logging, NAME) for the names of levels; other attributes of the module are
    not considered (bootstrap.py 28) *)
Definition level_names : dict string Z :=
  [("CRITICAL", 50); ("FATAL", 50); ("ERROR", 40); ("WARNING", 30); ("WARN", 30); ("INFO", 20); ("DEBUG", 10); ("NOTSET", 0)].
(** bootstrap.py 28 *)
Definition get_level (s : string) : res Z :=
  match dget level_names (upper s) with Some n => Ok n | None => Err AttributeError end.

(** ** The command line: process.py 113-165 *)
Inductive text := TStr (s : string) | TBytes (s : string).
(** the arguments of start_process, process.py 29 *)
Inductive lvl := LNone | LInt (n : Z) | LStr (s : string).
(** the arguments of start_process, process.py 29 *)
Record request := mkQ { q_name : option string; q_address : text; q_qt : bool; q_daemon : bool;
                        q_log_addr : option text; q_log_level : lvl }.
(** the parent: get_process_name(), get_logger_address(), getEffectiveLevel(), PROCESS_NAME_PREFIX
    (process.py 119-135) *)
Record parent := mkPar { p_name : string; p_logger : option text; p_level : Z; p_prefix : string }.

(** process.py 119-120 *)
Definition log_addr_of (p : parent) (q : request) : option text :=
  match q_log_addr q with None => if q_daemon q then None else p_logger p | a => a end.
(** process.py 122-125 *)
Definition level_of (p : parent) (q : request) : res Z :=
  match q_log_level q with LNone => Ok (p_level p) | LInt n => Ok n | LStr s => get_level s end.
(** process.py 133-135 *)
Definition name_of (p : parent) (q : request) : string :=
  (p_prefix p ++ match q_name q with None => p_name p ++ "_child" | Some n => n end)%string.
(** f'{address}' (process.py 159); the repr of bytes is simplified: nothing is escaped *)
Definition format_text (t : text) : string :=
  match t with TStr s => s | TBytes s => ("b'" ++ s ++ "'")%string end.
(** .decode() (process.py 155) *)
Definition decode (t : text) : res string :=
  match t with TBytes s => Ok s | TStr _ => Err AttributeError end.
(** process.py 146-165 *)
Definition bootstrap_args (p : parent) (q : request) (boot : string) : res (list string) :=
  bind (level_of p q) (fun level =>
  bind (match log_addr_of p q with
        | None => Ok []
        | Some a => bind (decode a) (fun a => Ok [("--logaddr=" ++ a)%string; ("--loglevel=" ++ str_int level)%string])
        end) (fun l =>
  Ok ([name_of p q] ++ (if q_qt q then ["--qt"] else []) ++ (if q_daemon q then ["--daemon"] else []) ++ l ++
      [("--listen_addr=" ++ format_text (q_address q))%string; ("--bootstrap_addr=" ++ boot)%string] ++
      (if String.eqb (p_prefix p) "" then [] else [("--child_name_prefix=" ++ p_prefix p)%string])))).
(** ' '.join(cmd) (process.py 180-181) followed by the splitting done by the shell, for
    words without other characters special to it (a '*' that matches no file stays) *)
Fixpoint join (l : list string) : string :=
  match l with [] => EmptyString | [a] => a | a :: r => (a ++ String " " (join r))%string end.
(** what the shell does with the line of process.py 181 *)
Fixpoint split_words (s : string) (cur : string) : list string :=
  match s with
  | EmptyString => if String.eqb cur "" then [] else [cur]
  | String " " r => if String.eqb cur "" then split_words r "" else cur :: split_words r ""
  | String c r => split_words r (cur ++ String c EmptyString)%string
  end.
(** process.py 180-181, 206 *)
Definition through_shell (shell : bool) (l : list string) : list string :=
  if shell then split_words (join l) "" else l.

(** ** argparse (library) with the parser of bootstrap.py 8-17 *)
Inductive cval := VNone | VBool (b : bool) | VStr (s : string) | VInt (n : Z).
(** vars(args), bootstrap.py 20 *)
Definition conf := dict string cval.
(** bootstrap.py 9-17: defaults *)
Definition conf0 : conf :=
  [("procname", VNone); ("listen_addr", VStr "tcp://127.0.0.1:*"); ("daemon", VBool false); ("qt", VBool false);
   ("verbose", VBool false); ("logaddr", VNone); ("loglevel", VStr "INFO"); ("bootstrap_addr", VNone); ("child_name_prefix", VStr "")].
(** option strings with the action, [None] for help; bootstrap.py 10-17 *)
Definition options : list (string * option string) :=
  [("-h", None); ("--help", None); ("--listen_addr", Some "listen_addr"); ("--daemon", Some "daemon"); ("--qt", Some "qt");
   ("--verbose", Some "verbose"); ("--logaddr", Some "logaddr"); ("--loglevel", Some "loglevel");
   ("--bootstrap_addr", Some "bootstrap_addr"); ("--child_name_prefix", Some "child_name_prefix")].
(** const of an option given without value; bootstrap.py 10-17 *)
Definition const_of (dest : string) : cval :=
  if existsb (String.eqb dest) ["daemon"; "qt"; "verbose"] then VBool true else VNone.

(** what _parse_optional (argparse 2243-2298) makes of one argument: a plain argument,
    '--', an unknown option, or an option with an explicit value *)
Inductive cls := CArg | CDash | CUnknown | COpt (dest : option string) (explicit : option string).
(** argparse 2300-2347 *)
Definition option_tuples (s : string) : list cls :=
  match s with
  | String "-" (String "-" _) =>
      let '(prefix, ex) := match split_eq s with Some (a, b) => (a, Some b) | None => (s, None) end in
      map (fun o => COpt (snd o) ex) (filter (fun o => starts prefix (fst o)) options)
  | String "-" (String c r) =>
      flat_map (fun o => if String.eqb (fst o) (String "-" (String c EmptyString)) then [COpt (snd o) (Some r)]
                         else if starts s (fst o) then [COpt (snd o) None] else []) options
  | _ => []
  end.
(** argparse 2243-2298, for bootstrap.py 19 *)
Definition parse_optional (s : string) : option cls :=      (* None: the program ends with an error *)
  match s with
  | String "-" EmptyString => Some CArg
  | String "-" _ =>
      match dget options s with
      | Some d => Some (COpt d None)
      | None =>
          match match split_eq s with Some (a, b) => match dget options a with Some d => Some (COpt d (Some b)) | None => None end | None => None end with
          | Some c => Some c
          | None => match option_tuples s with
                    | [c] => Some c
                    | _ :: _ => None
                    | [] => if negative_number s || contains " " s then Some CArg else Some CUnknown
                    end
          end
      end
  | _ => Some CArg
  end.
(** argparse 1938-1962 *)
Fixpoint classify (l : list string) : option (list (string * cls)) :=
  match l with
  | [] => Some []
  | s :: r =>
      if String.eqb s "--" then Some ((s, CDash) :: map (fun x => (x, CArg)) r)
      else match parse_optional s, classify r with Some c, Some t => Some ((s, c) :: t) | _, _ => None end
  end.
(** argparse, for bootstrap.py 19 *)
Definition is_opt (x : string * cls) : bool := match snd x with CUnknown | COpt _ _ => true | _ => false end.
(** consume_positionals (argparse 2076-2093) for the single positional, pattern -*A?-*;
    the values without '--' *)
Fixpoint dashes (l : list (string * cls)) : list (string * cls) :=
  match l with (_, CDash) :: r => dashes r | _ => l end.
(** argparse 2076-2093, for bootstrap.py 9, 19 *)
Definition positional (c : conf) (l : list (string * cls)) : conf * list (string * cls) :=
  match dashes l with
  | (s, CArg) :: r => (dset c "procname" (VStr s), dashes r)
  | r => (c, r)
  end.
(** argparse 2097-2137; [pending]: procname not read yet; [extra]: something was not
    recognised.  [None]: the program ends (error, or help). *)
Fixpoint parse (fuel : nat) (l : list (string * cls)) (pending extra : bool) (c : conf) : option conf :=
  match fuel with
  | O => None
  | S fuel =>
      if existsb is_opt l then
        match l with
        | [] => None
        | (s, CUnknown) :: r => parse fuel r pending true c
        | (s, COpt None _) :: r => None
        | (s, COpt (Some d) (Some v)) :: r => parse fuel r pending extra (dset c d (VStr v))
        | (s, COpt (Some d) None) :: (a, CArg) :: r => parse fuel r pending extra (dset c d (VStr a))
        | (s, COpt (Some d) None) :: r => parse fuel r pending extra (dset c d (const_of d))
        | _ :: r => if pending then let '(c, r) := positional c l in parse fuel r false extra c
                    else parse fuel r pending true c
        end
      else
        let '(c, r) := if pending then positional c l else (c, l) in
        match r with [] => if extra then None else Some c | _ => None end
  end.
(** bootstrap.py 19-20 *)
Definition parse_args (l : list string) : option conf :=
  match classify l with None => None | Some t => parse (S (List.length t)) t true false conf0 end.

(** ** bootstrap.py 22-125 *)
(** truth value (bootstrap.py 22, 55, 70) *)
Definition truthy (v : option cval) : bool :=
  match v with Some (VBool b) => b | Some (VStr s) => negb (String.eqb s "") | Some (VInt n) => negb (n =? 0) | _ => false end.
(** bootstrap.py 22-30; an AttributeError is not caught *)
Definition configure (c : conf) : res conf :=
  let c := dset c "class_name" (VStr (if truthy (dget c "qt") then "QtRPCServer" else "RPCServer")) in
  match dget c "loglevel" with
  | Some (VStr s) =>
      if isdigit s then bind (to_int s) (fun n => Ok (dset c "loglevel" (VInt n)))
      else bind (get_level s) (fun n => Ok (dset c "loglevel" (VInt n)))
  | _ => Err AttributeError
  end.
(** str.format with these fields (library) *)
Definition format_fields (fields : list string) (c : conf) : res unit :=
  if forallb (fun f => dmem c f) fields then Ok tt else Err KeyError.
(** the status sent to the parent, if any, and whether the child goes on running (bootstrap.py 92, 95) *)
Inductive status := SAddress (a : string) | SError (e : exn).
(** bootstrap.py 63-125; [qt_ok]: a QApplication can be made; [server]: what making the
    server at an address gives.  The child ends with an exception where nothing is sent. *)
Definition serve (c : conf) (qt_ok : bool) (server : string -> res string) : option status * bool :=
  if truthy (dget c "qt") && negb qt_ok then (None, false)                                     (* 70-73 *)
  else match format_fields ["procname"; "class_name"; "listen_addr"; "logaddr"; "loglevel"] c with   (* 85 *)
  | Err _ => (None, false)
  | Ok _ =>
      match dget c "listen_addr" with
      | Some (VStr a) =>
          match server a with                                                                  (* 88-92 *)
          | Ok real => (Some (SAddress real), true)
          | Err e =>
              match format_fields ["class_name"; "args"] c with                                (* 93-95 *)
              | Err _ => (None, false)
              | Ok _ => (Some (SError e), truthy (dget c "qt"))                                (* 121-125 *)
              end
          end
      | _ => (None, false)
      end
  end.
(** bootstrap.py 19-125 *)
Definition run_child (args : list string) (qt_ok : bool) (server : string -> res string) : option status * bool :=
  match parse_args args with
  | None => (None, false)
  | Some c => match configure c with Err _ => (None, false) | Ok c => serve c qt_ok server end
  end.

(** ** The rest of start_process: process.py 205-241 *)
Record handle := mkHd { h_name : string; h_qt : bool; h_addr : string }.
(** what start_process gives, and whether the child runs afterwards.  [in_time]: the
    status arrives within 10 s; [exited]: proc.poll() is not None when asked; [connect]:
    the RPCClient can be made. *)
Definition receive (p : parent) (q : request) (child : option status * bool) (in_time exited connect : bool) : res handle * bool :=
  match fst child, in_time with
  | None, _ | _, false => (Err TimeoutError, snd child)                         (* 220-223 *)
  | Some (SAddress a), true =>
      if connect then (Ok (mkHd (name_of p q) (q_qt q) a), snd child)           (* 228-231, 238-241 *)
      else (Err ConnectionRefusedError, snd child)
  | Some (SError e), true =>                                                    (* 232-236 *)
      (Err RuntimeError, if exited && negb (q_daemon q) then false else snd child)
  end.
(** what happens outside process.py 205-241 *)
Record world := mkWd { w_boot : string; w_qt : bool; w_server : string -> res string; w_in_time : bool; w_exited : bool; w_connect : bool }.
(** process.py 113-241 *)
Definition start_process (shell : bool) (p : parent) (q : request) (w : world) : res handle * bool :=
  match bootstrap_args p q (w_boot w) with
  | Err e => (Err e, false)
  | Ok args => receive p q (run_child (through_shell shell args) (w_qt w) (w_server w)) (w_in_time w) (w_exited w) (w_connect w)
  end.
