(** Model of what happens to JSON in a JavaScript program that reads it and writes it again: numbers are binary64
    floating point numbers.

    The generated TypeScript code types every integer field as number and reads answers with JSON.parse
    (_examples/webrpc-streaming/webapp/src/rpc.gen.ts 32, 48, 206, 249; tests/schema/test.ridl 21, 31, 58, 67 declare
    uint64 and int64 fields) and writes arguments with JSON.stringify (rpc.gen.ts 94-101; _examples/node-ts/webapp/
    client.gen.ts 252-267).  JSON.parse, JSON.stringify and the conversion of numbers to text are ECMA-262 25.5.1,
    25.5.2 and 6.1.6.1.20.

    Simplifications: only integer literals of magnitude at most 2^64 are converted, all others are left as they
    are; a bigint field is a string and not touched here (TsBig.v). *)
From Verif Require Import Base Utf8 Json GoVal.
Local Open Scope Z_scope.

(** the double nearest to an integer, ties to the even mantissa (ECMA-262 6.1.6.1, "the Number value for x") *)
Definition roundInt (z : Z) : Z :=
  let a := Z.abs z in
  if a <? 2 ^ 53 then z
  else
    let u := 2 ^ (Z.log2 a - 52) in
    let m := a / u in
    let r := a mod u in
    Z.sgn z * ((if (u <? 2 * r) || ((2 * r =? u) && Z.odd m) then m + 1 else m) * u).

(** ECMA-262 6.1.6.1.20 Number::toString of an integer below 10^21: the fewest digits that are read back as the
    number, of several the closest, filled up with zeros.  With [p] zeros there are two candidates. *)
Fixpoint shortestFrom (p : nat) (x : Z) : Z :=
  match p with
  | O => x
  | S q =>
      let u := 10 ^ Z.of_nat p in
      let lo := x / u * u in
      let hi := lo + u in
      if roundInt lo =? x then
        if roundInt hi =? x then
          if (x - lo <? hi - x) || ((x - lo =? hi - x) && Z.even (x / u)) then lo else hi
        else lo
      else if roundInt hi =? x then hi
      else shortestFrom q x
  end.
Definition shortest (x : Z) : Z := Z.sgn x * shortestFrom 20 (Z.abs x).

(** a number literal read and written *)
Definition jsLiteral (l : string) : string :=
  match parseInt (- 2 ^ 64) (2 ^ 64) l with
  | Some z => zdec (shortest (roundInt z))
  | None => l
  end.

(** ** Objects *)

(** a later member of the same name replaces the value of the earlier *)
Fixpoint jsPut {A} (k : string) (v : A) (l : list (string * A)) : list (string * A) :=
  match l with
  | [] => [(k, v)]
  | (k', v') :: r => if String.eqb k k' then (k', v) :: r else (k', v') :: jsPut k v r
  end.

(** ECMA-262 10.1.11: the names that are array indices come first, in ascending order *)
Definition arrayIndex (k : string) : option Z :=
  match parseInt 0 (2 ^ 32 - 2) k with
  | Some z => if String.eqb (zdec z) k then Some z else None
  | None => None
  end.
Fixpoint putIndex {A} (z : Z) (e : string * A) (l : list (Z * (string * A))) : list (Z * (string * A)) :=
  match l with
  | [] => [(z, e)]
  | (z', e') :: r => if z <=? z' then (z, e) :: l else (z', e') :: putIndex z e r
  end.
Fixpoint indexed {A} (l : list (string * A)) : list (Z * (string * A)) :=
  match l with
  | [] => []
  | e :: r => match arrayIndex (fst e) with Some z => putIndex z e (indexed r) | None => indexed r end
  end.
Definition named {A} (l : list (string * A)) : list (string * A) :=
  filter (fun e => match arrayIndex (fst e) with Some _ => false | None => true end) l.
Definition ownKeys {A} (l : list (string * A)) : list (string * A) := map snd (indexed l) ++ named l.

(** JSON.stringify(JSON.parse(text)), on trees *)
Fixpoint throughJs (j : json) : json :=
  match j with
  | JNum l => JNum (jsLiteral l)
  | JArr l => JArr (map throughJs l)
  | JObj l => JObj (ownKeys ((fix go (l : list (string * json)) (acc : list (string * json)) :=
                                match l with
                                | [] => acc
                                | (k, x) :: r => go r (jsPut k (throughJs x) acc)
                                end) l []))
  | _ => j
  end.
