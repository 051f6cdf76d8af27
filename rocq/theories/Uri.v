(** What schema.go 49-60 asks of a base path: Go's net/url.ParseRequestURI on a
    path that starts with "/" and has no "?", "#" or space, followed by the
    check that no scheme, host, opaque part or user was found.  For such a path
    ParseRequestURI (Go standard library, net/url/url.go: parse with
    viaRequest=true) finds no scheme and no authority, rejects control bytes
    and rejects a "%" that is not followed by two hexadecimal digits. *)
From Verif Require Import Base.

Definition is_hex (c : ascii) : bool :=
  is_digit_byte c || in_range 65 70 (N_of_byte c) || in_range 97 102 (N_of_byte c).

Fixpoint pctOk (s : string) : bool :=
  match s with
  | EmptyString => true
  | String c r =>
      if Ascii.eqb c "%" then
        match r with
        | String a (String b r') => is_hex a && is_hex b && pctOk r'
        | _ => false
        end
      else pctOk r
  end.

Definition is_ctl (c : ascii) : bool := (N_of_byte c <? 32)%N || (N_of_byte c =? 127)%N.

Definition goUriOk (p : string) : bool := negb (sexists is_ctl p) && pctOk p.
