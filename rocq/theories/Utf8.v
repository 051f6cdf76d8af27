(** UTF-8: what the Go conversions [string([]rune)] and [[]rune(string)] do.
    Modelled because schema/ridl/lexer.go lines 414-421 (newLexer) converts the
    source to runes and lines 473-475 (val) converts tokens back to strings. *)
From Verif Require Import Base.
Local Open Scope N_scope.

(** unicode scalar values: what a valid rune is *)
Definition valid_rune (r : N) : bool :=
  (r <? 0xD800) || ((0xE000 <=? r) && (r <=? 0x10FFFF)).

Definition replacement : N := 0xFFFD.

(** utf8.EncodeRune (Go: string(rune)); an invalid rune encodes as U+FFFD *)
Definition encode_valid (r : N) : string :=
  if r <? 0x80 then String (byte_of_N r) EmptyString
  else if r <? 0x800 then
    String (byte_of_N (0xC0 + r / 64)) (String (byte_of_N (0x80 + r mod 64)) EmptyString)
  else if r <? 0x10000 then
    String (byte_of_N (0xE0 + r / 4096))
      (String (byte_of_N (0x80 + r / 64 mod 64))
        (String (byte_of_N (0x80 + r mod 64)) EmptyString))
  else
    String (byte_of_N (0xF0 + r / 262144))
      (String (byte_of_N (0x80 + r / 4096 mod 64))
        (String (byte_of_N (0x80 + r / 64 mod 64))
          (String (byte_of_N (0x80 + r mod 64)) EmptyString))).

Definition encode_rune (r : N) : string :=
  encode_valid (if valid_rune r then r else replacement).

(** string([]rune) *)
Fixpoint encode (rs : list N) : string :=
  match rs with
  | [] => EmptyString
  | r :: t => (encode_rune r ++ encode t)%string
  end.

Definition is_cont (b : N) : bool := (0x80 <=? b) && (b <? 0xC0).

(** utf8.DecodeRuneInString: first rune and the rest; an invalid sequence
    yields U+FFFD and consumes one byte. *)
Definition decode_rune (c : ascii) (s : string) : N * string :=
  let b0 := N_of_byte c in
  let bad := (replacement, s) in
  if b0 <? 0x80 then (b0, s)
  else if b0 <? 0xC2 then bad
  else if b0 <? 0xE0 then
    match s with
    | String c1 s1 =>
        let b1 := N_of_byte c1 in
        if is_cont b1 then ((b0 - 0xC0) * 64 + (b1 - 0x80), s1) else bad
    | _ => bad
    end
  else if b0 <? 0xF0 then
    match s with
    | String c1 (String c2 s2) =>
        let b1 := N_of_byte c1 in let b2 := N_of_byte c2 in
        let lo := if b0 =? 0xE0 then 0xA0 else 0x80 in
        let hi := if b0 =? 0xED then 0x9F else 0xBF in
        if (lo <=? b1) && (b1 <=? hi) && is_cont b2
        then ((b0 - 0xE0) * 4096 + (b1 - 0x80) * 64 + (b2 - 0x80), s2) else bad
    | _ => bad
    end
  else if b0 <? 0xF5 then
    match s with
    | String c1 (String c2 (String c3 s3)) =>
        let b1 := N_of_byte c1 in let b2 := N_of_byte c2 in let b3 := N_of_byte c3 in
        let lo := if b0 =? 0xF0 then 0x90 else 0x80 in
        let hi := if b0 =? 0xF4 then 0x8F else 0xBF in
        if (lo <=? b1) && (b1 <=? hi) && is_cont b2 && is_cont b3
        then ((b0 - 0xF0) * 262144 + (b1 - 0x80) * 4096 + (b2 - 0x80) * 64 + (b3 - 0x80), s3)
        else bad
    | _ => bad
    end
  else bad.

(** []rune(string); the fuel is the byte length (each rune takes >= 1 byte) *)
Fixpoint decode_fuel (n : nat) (s : string) : list N :=
  match n with
  | O => []
  | S k => match s with
           | EmptyString => []
           | String c r => let (x, r') := decode_rune c r in x :: decode_fuel k r'
           end
  end.

Definition decode (s : string) : list N := decode_fuel (String.length s) s.
