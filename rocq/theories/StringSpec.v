(** Specification of RIDL string literals: what the characters between the quotes denote. *)
From Verif Require Import Base Utf8.

(** [Denotes raw content]: plain ASCII characters stand for themselves, [\n] and [\t] for
    newline and tab.  (No quote, newline or NUL; no other escape.) *)
Inductive Denotes : list N -> string -> Prop :=
| DenNil : Denotes [] ""
| DenPlain c raw s :
    (1 <= c <= 127)%N -> c <> 10%N -> c <> 34%N -> c <> 92%N ->
    Denotes raw s -> Denotes (c :: raw) (String (ascii_of_N c) s)
| DenNewline raw s : Denotes raw s -> Denotes (92%N :: 110%N :: raw) (String "010"%char s)
| DenTab raw s : Denotes raw s -> Denotes (92%N :: 116%N :: raw) (String "009"%char s).

(** What the code does with every text between quotes.  An unescaped character
    stands for the characters whose numbers are the bytes of its UTF-8 encoding; for an ASCII
    character that is the character itself. *)
Definition stands_for (c : N) : string := encode (map N_of_byte (list_ascii_of_string (encode_rune c))).

(** [Reads raw content]: the text [raw] contains no newline, no quote but an escaped one, no
    backslash but in an escaped n, t or quote, and stands for [content]. *)
Inductive Reads : list N -> string -> Prop :=
| RdNil : Reads [] ""
| RdPlain c raw s :
    c <> 10%N -> c <> 34%N -> c <> 92%N -> Reads raw s -> Reads (c :: raw) (stands_for c ++ s)
| RdNewline raw s : Reads raw s -> Reads (92%N :: 110%N :: raw) (String "010"%char s)
| RdTab raw s : Reads raw s -> Reads (92%N :: 116%N :: raw) (String "009"%char s)
| RdQuote raw s : Reads raw s -> Reads (92%N :: 34%N :: raw) (String """"%char s).
