(** Model of the parts of Go's encoding/json that the generated code and the
    schema writer call: json.Marshal / Encoder.Encode / json.Unmarshal on the
    level of bytes.
    Used by: tests/server/server.gen.go (json.Marshal 368, json.Unmarshal 391,
    sendErrorJSON 633-643), tests/client/client.gen.go (doHTTPRequestRaw
    394-442), _examples/webrpc-streaming/proto/chat.gen.go (Encoder.Encode
    120, json.Unmarshal 246), schema/schema.go ToJSON, schema/json_schema.go.

    Simplifications: a number is kept as its literal text; the error values of
    encoding/json are not distinguished (an option). *)
From Verif Require Import Base Utf8.

(** ** JSON values.  An object keeps its members in order of appearance. *)
Inductive json : Type :=
| JNull
| JBool (b : bool)
| JNum (lit : string)
| JStr (s : string)
| JArr (l : list json)
| JObj (l : list (string * json)).

(** ** Writing *)

Definition chr (n : N) : string := String (byte_of_N n) EmptyString.

(** one lower-case hexadecimal digit *)
Definition hexDigit (n : N) : ascii :=
  byte_of_N (if (n <? 10)%N then 48 + n else 87 + n)%N.

(** \u followed by four hexadecimal digits *)
Definition uEscape (n : N) : string :=
  String "\" (String "u" (String (hexDigit (n / 4096 mod 16)) (String (hexDigit (n / 256 mod 16))
    (String (hexDigit (n / 16 mod 16)) (String (hexDigit (n mod 16)) EmptyString))))).

(** encoding/json appendString with escapeHTML: what is written for one rune of
    the string *)
Definition escRune (r : N) : string :=
  if (r =? 34)%N then chr 92 ++ chr 34
  else if (r =? 92)%N then chr 92 ++ chr 92
  else if (r =? 8)%N then chr 92 ++ "b"
  else if (r =? 12)%N then chr 92 ++ "f"
  else if (r =? 10)%N then chr 92 ++ "n"
  else if (r =? 13)%N then chr 92 ++ "r"
  else if (r =? 9)%N then chr 92 ++ "t"
  else if (r <? 32)%N then uEscape r
  else if (r =? 60)%N || (r =? 62)%N || (r =? 38)%N then uEscape r
  else if (r =? 0x2028)%N || (r =? 0x2029)%N then uEscape r
  else encode_rune r.

(** a byte that starts no valid UTF-8 sequence is written as \ufffd; a genuine
    U+FFFD is written as its three bytes *)
Definition escFirst (c : ascii) (s : string) : string * string :=
  let (r, s') := decode_rune c s in
  if (r =? replacement)%N && (String.length s' =? String.length s)%nat
  then (uEscape replacement, s')
  else (escRune r, s').

Fixpoint escFuel (n : nat) (s : string) : string :=
  match n with
  | O => EmptyString
  | S k => match s with
           | EmptyString => EmptyString
           | String c r => let (o, r') := escFirst c r in (o ++ escFuel k r')%string
           end
  end.

Definition escape (s : string) : string := escFuel (String.length s) s.

Definition quoteJ (s : string) : string := (chr 34 ++ escape s ++ chr 34)%string.

(** json.Marshal of a value (compact form) *)
Fixpoint printJ (j : json) : string :=
  match j with
  | JNull => "null"
  | JBool true => "true"
  | JBool false => "false"
  | JNum l => l
  | JStr s => quoteJ s
  | JArr l =>
      (chr 91 ++
       (fix go (first : bool) (l : list json) : string :=
          match l with
          | [] => EmptyString
          | x :: r => ((if first then EmptyString else chr 44) ++ printJ x ++ go false r)%string
          end) true l ++ chr 93)%string
  | JObj l =>
      (chr 123 ++
       (fix go (first : bool) (l : list (string * json)) : string :=
          match l with
          | [] => EmptyString
          | (k, x) :: r => ((if first then EmptyString else chr 44) ++ quoteJ k ++ chr 58 ++ printJ x ++ go false r)%string
          end) true l ++ chr 125)%string
  end.

(** ** Reading *)

Definition isWs (c : ascii) : bool :=
  let n := N_of_byte c in (n =? 32)%N || (n =? 9)%N || (n =? 13)%N || (n =? 10)%N.

Fixpoint skipWs (s : string) : string :=
  match s with
  | String c r => if isWs c then skipWs r else s
  | EmptyString => EmptyString
  end.

Definition hexVal (c : ascii) : option N :=
  let n := N_of_byte c in
  if in_range 48 57 n then Some (n - 48)%N
  else if in_range 97 102 n then Some (n - 87)%N
  else if in_range 65 70 n then Some (n - 55)%N
  else None.

(** decode.go getu4 on the four digits after \u *)
Definition getu4 (s : string) : option (N * string) :=
  match s with
  | String a (String b (String c (String d r))) =>
      match hexVal a, hexVal b, hexVal c, hexVal d with
      | Some x, Some y, Some z, Some w => Some (x * 4096 + y * 256 + z * 16 + w, r)%N
      | _, _, _, _ => None
      end
  | _ => None
  end.

Definition isSurrogate (n : N) : bool := in_range 0xD800 0xDFFF n.

(** utf16.DecodeRune *)
Definition decodeSurrogates (a b : N) : N :=
  if in_range 0xD800 0xDBFF a && in_range 0xDC00 0xDFFF b
  then ((a - 0xD800) * 1024 + (b - 0xDC00) + 0x10000)%N
  else replacement.

(** decode.go unquoteBytes, the \u case: [r] is what follows the four digits *)
Definition unescapeU (n : N) (r : string) : N * string :=
  if isSurrogate n then
    match r with
    | String a (String b r2) =>
        if (N_of_byte a =? 92)%N && (N_of_byte b =? 117)%N then
          match getu4 r2 with
          | Some (n2, r3) =>
              let d := decodeSurrogates n n2 in
              if (d =? replacement)%N then (replacement, r) else (d, r3)
          | None => (replacement, r)
          end
        else (replacement, r)
    | _ => (replacement, r)
    end
  else (n, r).

(** one element of a string literal: scanner stateInString / stateInStringEsc*
    and unquoteBytes.  [None]: syntax error or unterminated literal. *)
Definition readChar (c : ascii) (r : string) : option (string * string) :=
  let n := N_of_byte c in
  if (n =? 92)%N then
    match r with
    | EmptyString => None
    | String e r' =>
        let m := N_of_byte e in
        if (m =? 34)%N || (m =? 92)%N || (m =? 47)%N then Some (String e EmptyString, r')
        else if (m =? 98)%N then Some (chr 8, r')
        else if (m =? 102)%N then Some (chr 12, r')
        else if (m =? 110)%N then Some (chr 10, r')
        else if (m =? 114)%N then Some (chr 13, r')
        else if (m =? 116)%N then Some (chr 9, r')
        else if (m =? 117)%N then
          match getu4 r' with
          | Some (x, r2) => let (y, r3) := unescapeU x r2 in Some (encode_rune y, r3)
          | None => None
          end
        else None
    end
  else if (n <? 32)%N then None
  else if (n <? 128)%N then Some (String c EmptyString, r)
  else let (x, r') := decode_rune c r in Some (encode_rune x, r').

(** the body of a string literal up to and including the closing quote *)
Fixpoint readStr (n : nat) (s : string) : option (string * string) :=
  match n with
  | O => None
  | S k =>
      match s with
      | EmptyString => None
      | String c r =>
          if (N_of_byte c =? 34)%N then Some (EmptyString, r)
          else match readChar c r with
               | None => None
               | Some (o, r') =>
                   match readStr k r' with
                   | Some (t, r2) => Some ((o ++ t)%string, r2)
                   | None => None
                   end
               end
      end
  end.

(** the longest prefix of digits *)
Fixpoint digits (s : string) : string * string :=
  match s with
  | String c r => if is_digit_byte c then let (a, b) := digits r in (String c a, b)
                  else (EmptyString, s)
  | EmptyString => (EmptyString, EmptyString)
  end.

Definition isEmptyStr (s : string) : bool := match s with EmptyString => true | _ => false end.

(** integer part: 0, or a non-zero digit followed by digits (scanner state0/state1) *)
Definition readInt (s : string) : option (string * string) :=
  match s with
  | String c r =>
      if (N_of_byte c =? 48)%N then Some (chr 48, r)
      else if is_digit_byte c then Some (digits s)
      else None
  | EmptyString => None
  end.

(** fraction (stateDot, stateDot0); none if there is no point *)
Definition readFrac (s : string) : option (string * string) :=
  match s with
  | String c r =>
      if (N_of_byte c =? 46)%N then
        let (d, r') := digits r in
        if isEmptyStr d then None else Some (String c d, r')
      else Some (EmptyString, s)
  | EmptyString => Some (EmptyString, EmptyString)
  end.

(** exponent (stateE, stateESign, stateE0); none if there is no e *)
Definition readExp (s : string) : option (string * string) :=
  match s with
  | String c r =>
      if (N_of_byte c =? 101)%N || (N_of_byte c =? 69)%N then
        let (sg, r1) := match r with
                        | String d r' => if (N_of_byte d =? 43)%N || (N_of_byte d =? 45)%N
                                         then (String d EmptyString, r') else (EmptyString, r)
                        | EmptyString => (EmptyString, r)
                        end in
        let (d, r2) := digits r1 in
        if isEmptyStr d then None else Some (String c (sg ++ d), r2)
      else Some (EmptyString, s)
  | EmptyString => Some (EmptyString, EmptyString)
  end.

Definition readNum (s : string) : option (string * string) :=
  let (sg, s1) := match s with
                  | String c r => if (N_of_byte c =? 45)%N then (chr 45, r) else (EmptyString, s)
                  | EmptyString => (EmptyString, s)
                  end in
  match readInt s1 with
  | None => None
  | Some (i, s2) =>
      match readFrac s2 with
      | None => None
      | Some (f, s3) =>
          match readExp s3 with
          | None => None
          | Some (e, s4) => Some ((sg ++ i ++ f ++ e)%string, s4)
          end
      end
  end.

(** the literal [w] at the front of [s] *)
Fixpoint readWord (w s : string) : option string :=
  match w, s with
  | EmptyString, _ => Some s
  | String a w', String b s' => if Ascii.eqb a b then readWord w' s' else None
  | String _ _, EmptyString => None
  end.

(** the value at the front of [s] (white space before it is skipped), what
    follows it; [d] is the remaining nesting depth.  [n] is a recursion bound. *)
Fixpoint readVal (n : nat) (d : N) (s : string) : option (json * string) :=
  match n with
  | O => None
  | S k =>
      match skipWs s with
      | EmptyString => None
      | String c r =>
          let x := N_of_byte c in
          if (x =? 110)%N then option_map (pair JNull) (readWord "ull" r)
          else if (x =? 116)%N then option_map (pair (JBool true)) (readWord "rue" r)
          else if (x =? 102)%N then option_map (pair (JBool false)) (readWord "alse" r)
          else if (x =? 34)%N then
            match readStr (S (String.length r)) r with
            | Some (t, r') => Some (JStr t, r')
            | None => None
            end
          else if (x =? 91)%N then
            if (d =? 0)%N then None else
            match skipWs r with
            | String c2 r2 =>
                if (N_of_byte c2 =? 93)%N then Some (JArr [], r2)
                else match readElems k (d - 1)%N r with
                     | Some (l, r') => Some (JArr l, r')
                     | None => None
                     end
            | EmptyString => None
            end
          else if (x =? 123)%N then
            if (d =? 0)%N then None else
            match skipWs r with
            | String c2 r2 =>
                if (N_of_byte c2 =? 125)%N then Some (JObj [], r2)
                else match readMembers k (d - 1)%N r with
                     | Some (l, r') => Some (JObj l, r')
                     | None => None
                     end
            | EmptyString => None
            end
          else match readNum (String c r) with
               | Some (l, r') => Some (JNum l, r')
               | None => None
               end
      end
  end
with readElems (n : nat) (d : N) (s : string) : option (list json * string) :=
  match n with
  | O => None
  | S k =>
      match readVal k d s with
      | None => None
      | Some (v, r) =>
          match skipWs r with
          | String c r' =>
              if (N_of_byte c =? 93)%N then Some ([v], r')
              else if (N_of_byte c =? 44)%N then
                match readElems k d r' with
                | Some (l, r2) => Some (v :: l, r2)
                | None => None
                end
              else None
          | EmptyString => None
          end
      end
  end
with readMembers (n : nat) (d : N) (s : string) : option (list (string * json) * string) :=
  match n with
  | O => None
  | S k =>
      match skipWs s with
      | EmptyString => None
      | String q r0 =>
          if (N_of_byte q =? 34)%N then
            match readStr (S (String.length r0)) r0 with
            | None => None
            | Some (key, r1) =>
                match skipWs r1 with
                | EmptyString => None
                | String c1 r2 =>
                    if (N_of_byte c1 =? 58)%N then
                      match readVal k d r2 with
                      | None => None
                      | Some (v, r) =>
                          match skipWs r with
                          | String c r' =>
                              if (N_of_byte c =? 125)%N then Some ([(key, v)], r')
                              else if (N_of_byte c =? 44)%N then
                                match readMembers k d r' with
                                | Some (l, r3) => Some ((key, v) :: l, r3)
                                | None => None
                                end
                              else None
                          | EmptyString => None
                          end
                      end
                    else None
                end
            end
          else None
      end
  end.

(** scanner.go maxNestingDepth *)
Definition maxNestingDepth : N := 10000%N.

(** json.Unmarshal's checkValid: one value, then only white space *)
Definition parseJ (s : string) : option json :=
  match readVal (S (2 * String.length s)) maxNestingDepth s with
  | Some (j, r) => if isEmptyStr (skipWs r) then Some j else None
  | None => None
  end.
