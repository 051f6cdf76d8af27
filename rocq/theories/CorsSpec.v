(** What pages that call servers of another origin rely on. *)
From Verif Require Import Base.

(** an origin such as "http://localhost:4444": neither empty nor "*" *)
Definition Origin (o : string) : Prop := o <> EmptyString /\ o <> "*".

(** header names are compared without case *)
Definition Listed (names : list string) (k : string) : Prop := exists n, In n names /\ to_lower k = to_lower n.
Definition AllListed (names : list string) (hs : list (string * string)) : Prop := forall k v, In (k, v) hs -> Listed names k.

(** names of headers that browsers may send to any server without asking it, depending on the value *)
Definition simpleNames : list string := ["Accept"; "Accept-Language"; "Content-Language"; "Content-Type"].
(** names of headers that browsers let no page set *)
Definition Reserved (k : string) : Prop :=
  Listed ["Accept-Charset"; "Accept-Encoding"; "Access-Control-Request-Headers"; "Access-Control-Request-Method";
          "Access-Control-Request-Private-Network"; "Connection"; "Content-Length"; "Cookie"; "Cookie2"; "Date"; "DNT"; "Expect";
          "Host"; "Keep-Alive"; "Origin"; "Referer"; "Set-Cookie"; "TE"; "Trailer"; "Transfer-Encoding"; "Upgrade"; "Via"] k \/
  exists r, to_lower k = ("proxy-" ++ r)%string \/ to_lower k = ("sec-" ++ r)%string.

(** names made of letters, digits, "-", "_" and "." *)
Definition plainByte (c : ascii) : bool :=
  is_alpha_byte c || is_digit_byte c || existsb (Ascii.eqb c) (list_ascii_of_string "-_.").
Definition Plain (n : string) : Prop := n <> EmptyString /\ sforall plainByte n = true.

(** headers that leave CORS alone *)
Definition NoCorsHeaders (hs : list (string * string)) : Prop :=
  forall k v, In (k, v) hs -> has_prefix "access-control-" (to_lower k) = false.
