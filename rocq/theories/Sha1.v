(** crypto/sha1 and encoding/hex as used by schema.go 93-104 SchemaHash: the SHA-1 of FIPS 180-4 on
    bytes, written out.  It is only used as a function; nothing is proved about it except that it gives
    the hashes that are committed in the repository (Conformance.v). *)
From Verif Require Import Base Json.
Open Scope N_scope.

Definition w32 (n : N) : N := N.land n 0xFFFFFFFF.
Definition rotl (k n : N) : N := w32 (N.lor (N.shiftl n k) (N.shiftr n (32 - k))).
Definition add32 (a b : N) : N := w32 (a + b).

(** the words of a block *)
Fixpoint words (bs : list N) : list N :=
  match bs with
  | a :: b :: c :: d :: r => (a * 16777216 + b * 65536 + c * 256 + d) :: words r
  | _ => []
  end.

(** the message schedule: [w] is the list of the words so far, latest first *)
Fixpoint schedule (n : nat) (w : list N) : list N :=
  match n with
  | O => rev w
  | S k => schedule k (rotl 1 (N.lxor (N.lxor (nth 2 w 0) (nth 7 w 0)) (N.lxor (nth 13 w 0) (nth 15 w 0))) :: w)
  end.

Record digest := Digest { dA : N; dB : N; dC : N; dD : N; dE : N }.
Definition f_k (t : nat) (b c d : N) : N * N :=
  if (t <? 20)%nat then (N.lor (N.land b c) (N.land (N.lxor b 0xFFFFFFFF) d), 0x5A827999)
  else if (t <? 40)%nat then (N.lxor (N.lxor b c) d, 0x6ED9EBA1)
  else if (t <? 60)%nat then (N.lor (N.lor (N.land b c) (N.land b d)) (N.land c d), 0x8F1BBCDC)
  else (N.lxor (N.lxor b c) d, 0xCA62C1D6).
Fixpoint rounds (t : nat) (ws : list N) (s : digest) : digest :=
  match ws with
  | [] => s
  | w :: r =>
      let (f, k) := f_k t (dB s) (dC s) (dD s) in
      let tmp := add32 (add32 (add32 (rotl 5 (dA s)) f) (add32 (dE s) k)) w in
      rounds (S t) r (Digest tmp (dA s) (rotl 30 (dB s)) (dC s) (dD s))
  end.
Definition block (s : digest) (bs : list N) : digest :=
  let s' := rounds 0 (schedule 64 (rev (words bs))) s in
  Digest (add32 (dA s) (dA s')) (add32 (dB s) (dB s')) (add32 (dC s) (dC s'))
         (add32 (dD s) (dD s')) (add32 (dE s) (dE s')).
Fixpoint blocks (n : nat) (s : digest) (bs : list N) : digest :=
  match n with
  | O => s
  | S k => match bs with
           | [] => s
           | _ => blocks k (block s (firstn 64 bs)) (skipn 64 bs)
           end
  end.
Definition be (k : nat) (n : N) : list N :=
  map (fun i => N.land (N.shiftr n (8 * N.of_nat i)) 255) (rev (seq 0 k)).
Definition sha1 (bs : list N) : list N :=
  let len := length bs in
  let pad := ((119 - len mod 64) mod 64)%nat in
  let msg := (bs ++ 128 :: repeat 0 pad ++ be 8 (8 * N.of_nat len))%list in
  let s := blocks (S (length msg / 64)) (Digest 0x67452301 0xEFCDAB89 0x98BADCFE 0x10325476 0xC3D2E1F0) msg in
  flat_map (be 4) [dA s; dB s; dC s; dD s; dE s].

(** hex.EncodeToString *)
Definition hexBytes (bs : list N) : string :=
  string_of_list_ascii (flat_map (fun b => [hexDigit (b / 16); hexDigit (b mod 16)]) bs).
Definition sha1Hex (s : string) : string := hexBytes (sha1 (map N_of_byte (list_ascii_of_string s))).

Example sha1_abc : sha1Hex "abc" = "a9993e364706816aba3e25717850c26c9cd0d89d".
Proof. vm_compute. reflexivity. Qed.
Example sha1_two_blocks : sha1Hex "abcdbcdecdefdefgefghfghighijhijkijkljklmklmnlmnomnopnopq" =
  "84983e441c3bd26ebaae4aa1f95129e5e54670f1".
Proof. vm_compute. reflexivity. Qed.
Example sha1_empty : sha1Hex "" = "da39a3ee5e6b4b0d3255bfef95601890afd80709".
Proof. vm_compute. reflexivity. Qed.
