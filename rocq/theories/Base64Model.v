(** base64.b64encode / b64decode as used by teleprox/serializer.py 300, 305, 317, 320.
    Library behaviour: CPython's binascii.b2a_base64 and (non-strict)
    a2b_base64, transcribed. *)
From Verif Require Import Py.

(** bytes as numbers, for serializer.py 300-320 (library) *)
Definition byte_val (c : ascii) : Z := Z.of_N (N_of_ascii c).
(** bytes as numbers, for serializer.py 300-320 (library) *)
Definition byte_of (z : Z) : ascii := ascii_of_N (Z.to_N z).

(** the standard alphabet, for serializer.py 300, 305 (library) *)
Definition b64_alphabet : string := "ABCDEFGHIJKLMNOPQRSTUVWXYZabcdefghijklmnopqrstuvwxyz0123456789+/".
(** the standard alphabet, for serializer.py 300, 305 (library) *)
Definition b64_char (n : Z) : ascii :=
  match String.get (Z.to_nat n) b64_alphabet with Some c => c | None => zero end.
Fixpoint index_in (c : ascii) (s : string) (i : Z) : Z :=
  match s with
  | EmptyString => 255
  | String c' r => if Ascii.eqb c c' then i else index_in c r (i + 1)
  end.
(* table_a2b_base64: 0..63, or something >= 64 for any other character *)
Definition b64_val (c : ascii) : Z := index_in c b64_alphabet 0.

(** binascii.b2a_base64(newline=False) *)
Fixpoint b64encode (b : list ascii) : list ascii :=
  match b with
  | x :: y :: z :: r =>
      let '(a, b, c) := (byte_val x, byte_val y, byte_val z) in
      b64_char (a / 4) :: b64_char (a mod 4 * 16 + b / 16) ::
      b64_char (b mod 16 * 4 + c / 64) :: b64_char (c mod 64) :: b64encode r
  | [x; y] =>
      let '(a, b) := (byte_val x, byte_val y) in
      [b64_char (a / 4); b64_char (a mod 4 * 16 + b / 16); b64_char (b mod 16 * 4); "="%char]
  | [x] =>
      let a := byte_val x in
      [b64_char (a / 4); b64_char (a mod 4 * 16); "="%char; "="%char]
  | [] => []
  end.

(** binascii.a2b_base64(strict_mode=False): state is the position in the group
    of four, the bits left over and the number of '=' seen in a row.
    binascii.Error is a subclass of ValueError. *)
Fixpoint a2b (s : list ascii) (quad left pads : Z) (out : list ascii) : res (list ascii) :=
  match s with
  | [] => if quad =? 0 then Ok (rev out) else Err ValueError
  | c :: r =>
      if Ascii.eqb c "="%char then
        if (2 <=? quad) && (4 <=? quad + (pads + 1)) then Ok (rev out)
        else a2b r quad left (if 2 <=? quad then pads + 1 else pads) out
      else
        let v := b64_val c in
        if 64 <=? v then a2b r quad left pads out
        else if quad =? 0 then a2b r 1 v 0 out
        else if quad =? 1 then a2b r 2 (v mod 16) 0 (byte_of (left * 4 + v / 16) :: out)
        else if quad =? 2 then a2b r 3 (v mod 4) 0 (byte_of (left * 16 + v / 4) :: out)
        else a2b r 0 0 0 (byte_of (left * 64 + v) :: out)
  end.
(** base64.b64decode, serializer.py 317, 320 (library) *)
Definition b64decode (s : list ascii) : res (list ascii) := a2b s 0 0 0 [].
