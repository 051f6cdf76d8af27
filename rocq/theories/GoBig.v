(** Model of the BigInt type of generated Go code, _examples/node-ts/server-go/example.gen.go 682-820.
    A BigInt is the integer it holds (the receiver's old value is an argument where it may be kept);
    [None] is an error.  math/big is modelled by Z: String, SetString base 10, Bytes, SetBytes, Neg, Mul, Exp. *)
From Verif Require Import Base Json GoVal.

(** 697-699 MarshalText, 732-734 MarshalJSON *)
Definition bigMarshalText (z : Z) : string := (chr 34 ++ zdec z ++ chr 34)%string.
Definition bigMarshalJSON (z : Z) : string := bigMarshalText z.

Definition isBlankByte (c : ascii) : bool :=
  let x := N_of_byte c in (x =? 32)%N || (x =? 9)%N || (x =? 10)%N || (x =? 13)%N.
Definition lastByte (s : string) : option ascii := String.get (String.length s - 1) s.

(** 702-729 UnmarshalText *)
Definition bigUnmarshalText (old : Z) (text : string) : option Z :=
  match text with
  | EmptyString => Some old
  | String c _ =>
      if String.eqb text "null" then Some old
      else if sexists isBlankByte text then None
      else if (N_of_byte c =? 45)%N || is_digit_byte c then setString10 text
      else if (String.length text <? 2)%nat || negb (N_of_byte c =? 34)%N ||
              negb (match lastByte text with Some d => (N_of_byte d =? 34)%N | None => false end) then None
      else setString10 (take (String.length text - 2) (drop 1 text))
  end.

(** 737-742 UnmarshalJSON *)
Definition bigUnmarshalJSON (old : Z) (text : string) : option Z :=
  if String.eqb text "null" then Some old else bigUnmarshalText old text.

(** big.Int.Bytes: the absolute value, most significant byte first, without leading zero bytes *)
Fixpoint littleEndian (fuel : nat) (n : N) : list ascii :=
  match fuel with
  | O => []
  | S k => if (n =? 0)%N then [] else byte_of_N (n mod 256) :: littleEndian k (n / 256)
  end.
Definition bigBytes (z : Z) : string :=
  string_of_list_ascii (rev (littleEndian (N.to_nat (N.size (Z.abs_N z))) (Z.abs_N z))).
(** big.Int.SetBytes *)
Definition bigSetBytes (s : string) : N :=
  fold_left (fun acc c => (acc * 256 + N_of_byte c)%N) (list_ascii_of_string s) 0%N.

(** 746-758 MarshalBinary *)
Definition bigMarshalBinary (z : Z) : string :=
  String (if (z <? 0)%Z then byte_of_N 255 else byte_of_N 0) (bigBytes z).

(** 762-779 UnmarshalBinary *)
Definition bigUnmarshalBinary (buff : string) : Z :=
  match buff with
  | EmptyString => 0%Z
  | String c r =>
      let i := Z.of_N (match r with EmptyString => 0%N | _ => bigSetBytes r end) in
      if (N_of_byte c =? 255)%N then (- i)%Z else i
  end.

(** 781-783 Value *)
Definition bigValue (z : Z) : string := zdec z.

(** what a database driver hands over *)
Inductive dbValue := DbNil | DbText (s : string) | DbBytes (s : string) | DbOther.

(** strings.SplitN(s, "e", 2) *)
Fixpoint cutE (s : string) : string * option string :=
  match s with
  | EmptyString => (EmptyString, None)
  | String c r => if (N_of_byte c =? 101)%N then (EmptyString, Some r)
                  else let (a, b) := cutE r in (String c a, b)
  end.

(** big.NewInt(1).Exp(10, e, nil): 1 unless e is positive *)
Definition bigExp10 (e : Z) : Z := if (e <=? 0)%Z then 1%Z else (10 ^ e)%Z.

(** 785-821 Scan *)
Definition bigScan (old : Z) (src : dbValue) : option Z :=
  match src with
  | DbNil => Some old
  | DbOther => None
  | DbText s | DbBytes s =>
      let (a, b) := cutE s in
      match setString10 a with
      | None => None
      | Some i => match b with
                  | None => Some i
                  | Some x => match setString10 x with
                              | None => None
                              | Some e => Some (i * bigExp10 e)%Z
                              end
                  end
      end
  end.
