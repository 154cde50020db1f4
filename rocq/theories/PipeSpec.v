(** What capturing output should do. *)
From Verif Require Import Py.

(** UTF-8 encoding of a code point, as in RFC 3629 *)
Definition scalar (c : Z) : Prop := 0 <= c < 55296 \/ 57344 <= c <= 1114111.
Definition encode1 (c : Z) : list Z :=
  if c <? 128 then [c]
  else if c <? 2048 then [192 + c / 64; 128 + c mod 64]
  else if c <? 65536 then [224 + c / 4096; 128 + c / 64 mod 64; 128 + c mod 64]
  else [240 + c / 262144; 128 + c / 4096 mod 64; 128 + c / 64 mod 64; 128 + c mod 64].
Definition encode (t : list Z) : list Z := flat_map encode1 t.

(** a line of text: characters without newline *)
Definition line_ok (t : list Z) : Prop := Forall scalar t /\ ~ In 10 t.
(** the bytes of some lines, each with its newline *)
Definition written (ts : list (list Z)) : list Z := flat_map (fun t => encode t ++ [10]) ts.
