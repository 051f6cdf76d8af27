(** Model of the BigInt helpers of generated TypeScript code,
    _examples/node-ts/webapp/client.gen.ts 189-268 (the same lines are in server/server.gen.ts 289-368 and
    server-hono/server.gen.ts).

    Simplifications: the members of an object are kept in the order in which they were added; type and field
    names are not names of members of Object.prototype; a string is its UTF-8 text. *)
From Verif Require Import Base Utf8 Json GoVal BigInt.

(** JavaScript values: what JSON.parse returns, and bigints, and undefined *)
Inductive jsv : Type :=
| SUndef
| SNull
| SBool (b : bool)
| SNum (lit : string)
| SStr (s : string)
| SBig (z : Z)
| SArr (l : list jsv)
| SObj (l : list (string * jsv)).

(** obj[k] *)
Definition objGet (k : string) (l : list (string * jsv)) : jsv :=
  match lookup k l with Some v => v | None => SUndef end.
(** obj[k] = v *)
Fixpoint objSet (k : string) (v : jsv) (l : list (string * jsv)) : list (string * jsv) :=
  match l with
  | [] => [(k, v)]
  | (k', v') :: r => if String.eqb k k' then (k', v) :: r else (k', v') :: objSet k v r
  end.

(** JSON.parse, from the tree of the text: of several members with one name the last counts *)
Fixpoint ofJson (j : json) : jsv :=
  match j with
  | JNull => SNull
  | JBool b => SBool b
  | JNum l => SNum l
  | JStr s => SStr s
  | JArr l => SArr (map ofJson l)
  | JObj l => SObj ((fix go (l : list (string * json)) (acc : list (string * jsv)) :=
                       match l with
                       | [] => acc
                       | (k, x) :: r => go r (objSet k (ofJson x) acc)
                       end) l [])
  end.

(** client.gen.ts 252-256 JsonEncode: JSON.stringify with a replacer.  [None] is undefined: such a member is left
    out, such an element is null. *)
Fixpoint jsonEncode (v : jsv) : option json :=
  match v with
  | SUndef => None
  | SNull => Some JNull
  | SBool b => Some (JBool b)
  | SNum l => Some (JNum l)
  | SStr s => Some (JStr s)
  | SBig z => Some (JStr (zdec z))
  | SArr l => Some (JArr (map (fun x => match jsonEncode x with Some j => j | None => JNull end) l))
  | SObj l => Some (JObj ((fix go (l : list (string * jsv)) :=
                             match l with
                             | [] => []
                             | (k, x) :: r => match jsonEncode x with Some j => (k, j) :: go r | None => go r end
                             end) l))
  end.

(** BigInt(s): white space around is ignored, the empty text is 0, then a prefix 0x, 0o, 0b and digits, or an
    optional sign and decimal digits; anything else throws (None) *)
Definition jsSpace (r : N) : bool :=
  (in_range 9 13 r || (r =? 32) || (r =? 0xA0) || (r =? 0xFEFF) || (r =? 0x1680) || in_range 0x2000 0x200A r ||
   (r =? 0x2028) || (r =? 0x2029) || (r =? 0x202F) || (r =? 0x205F) || (r =? 0x3000))%N.
Fixpoint dropSpace (l : list N) : list N :=
  match l with [] => [] | c :: r => if jsSpace c then dropSpace r else l end.
Definition jsTrim (s : string) : string := encode (rev (dropSpace (rev (dropSpace (decode s))))).

Definition radixDigit (c : ascii) : N :=
  let x := N_of_byte c in
  if in_range 48 57 x then x - 48 else if in_range 97 122 x then x - 87 else if in_range 65 90 x then x - 55 else 99.
Fixpoint radixDigits (base acc : N) (s : string) : option N :=
  match s with
  | EmptyString => Some acc
  | String c r => if (radixDigit c <? base)%N then radixDigits base (acc * base + radixDigit c) r else None
  end.
Definition radixLiteral (base : N) (s : string) : option Z :=
  match s with EmptyString => None | _ => option_map Z.of_N (radixDigits base 0 s) end.

Definition jsBigInt (s : string) : option Z :=
  match jsTrim s with
  | EmptyString => Some 0%Z
  | String c0 (String c1 r) as t =>
      let x := N_of_byte c1 in
      if (N_of_byte c0 =? 48)%N && ((x =? 120) || (x =? 88))%N then radixLiteral 16 r
      else if (N_of_byte c0 =? 48)%N && ((x =? 111) || (x =? 79))%N then radixLiteral 8 r
      else if (N_of_byte c0 =? 48)%N && ((x =? 98) || (x =? 66))%N then radixLiteral 2 r
      else setString10 t
  | t => setString10 t
  end.

(** the JavaScript truth of a value; a number zero counts as true here, which makes no difference below: the
    same value is assigned *)
Definition truthy (v : jsv) : bool :=
  match v with
  | SUndef | SNull => false
  | SBool b => b
  | SStr s => negb (isEmptyStr s)
  | SBig z => negb (z =? 0)%Z
  | _ => true
  end.

(** WebrpcBadResponseError.new *)
Definition badBig {A} : result A := Err "Invalid bigint value".

(** 234-236, 245-247: a string becomes a bigint, anything else stays *)
Definition toBig (v : jsv) : result jsv :=
  match v with
  | SStr s => match jsBigInt s with Some z => Ok (SBig z) | None => badBig end
  | _ => Ok v
  end.

(** d.slice(0, -2) *)
Definition slice2 (s : string) : string := take (String.length s - 2) s.

(** 208-247: one description; [rec] is decodeType.  An array has none of the members. *)
Definition decodeEntry (rec : string -> jsv -> result jsv) (obj : jsv) (d : entry) : result jsv :=
  match obj with
  | SObj ms =>
      match d with
      | EPair fieldName nestedType =>
          if has_suffix "[]" fieldName then
            let base := slice2 fieldName in
            match objGet base ms with
            | SArr l => do l' <- mapM (rec nestedType) l; Ok (SObj (objSet base (SArr l') ms))
            | _ => Ok obj
            end
          else if truthy (objGet fieldName ms) then
            if has_suffix "[]" nestedType then
              match objGet fieldName ms with
              | SArr l => do l' <- mapM (rec (slice2 nestedType)) l; Ok (SObj (objSet fieldName (SArr l') ms))
              | _ => Ok obj
              end
            else do v <- rec nestedType (objGet fieldName ms); Ok (SObj (objSet fieldName v ms))
          else Ok obj
      | EName name =>
          if has_suffix "[]" name then
            let base := slice2 name in
            match objGet base ms with
            | SArr l => do l' <- mapM toBig l; Ok (SObj (objSet base (SArr l') ms))
            | _ => Ok obj
            end
          else match objGet name ms with
               | SStr s => do v <- toBig (SStr s); Ok (SObj (objSet name v ms))
               | _ => Ok obj
               end
      end
  | _ => Ok obj
  end.

(** 203-249 decodeType.  [n] bounds the depth of the calls; each goes to a member of the object, so
    [decodeType] gives enough. *)
Fixpoint decodeFuel (n : nat) (table : bigTable) (typ : string) (obj : jsv) : result jsv :=
  match n with
  | O => OutOfFuel
  | S n =>
      match obj with
      | SObj _ | SArr _ =>
          match assoc typ table with
          | Some descs => Base.foldM (decodeEntry (decodeFuel n table)) descs obj
          | None => Ok obj
          end
      | _ => Ok obj
      end
  end.

(** how deep a value is nested *)
Fixpoint sdepth (v : jsv) : nat :=
  match v with
  | SArr l => S ((fix go l := match l with [] => 0 | x :: r => Nat.max (sdepth x) (go r) end) l)
  | SObj l => S ((fix go (l : list (string * jsv)) := match l with [] => 0 | (_, x) :: r => Nat.max (sdepth x) (go r) end) l)
  | _ => 0
  end.

Definition decodeType (table : bigTable) (typ : string) (obj : jsv) : result jsv := decodeFuel (S (sdepth obj)) table typ obj.

(** 259-267 JsonDecode.  Data that is a string is taken for JSON text. *)
Definition jsonDecode (table : bigTable) (typ : string) (data : json) : result jsv :=
  match data with
  | JStr s => match parseJ s with Some j => decodeType table typ (ofJson j) | None => Err "JsonDecode: JSON.parse failed" end
  | _ => decodeType table typ (ofJson data)
  end.
