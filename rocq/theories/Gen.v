(** Model of package gen: template helper functions (funcmap*.go) and the
    Webrpc header (gen.go), with its decoder in generated Go code. *)
From Verif Require Import Base Utf8 Schema.

(** strings.Cut for a one-byte separator *)
Definition cut (c : ascii) (s : string) : option (string * string) :=
  match index_byte c s with
  | None => None
  | Some p => Some (take p s, drop (S p) s)
  end.

(** strings.TrimSuffix *)
Definition trim_suffix (p s : string) : string :=
  if has_suffix p s then take (String.length s - String.length p) s else s.

(** ** funcmap_types.go.  The argument [interface{}] is a string or a VarType;
    funcmap_string.go 10-33 toString turns a VarType into its Expr. *)

(** funcmap_types.go 11-14 *)
Definition isCoreType (s : string) : bool :=
  match core_from_string s with Some _ => true | None => false end.
(** 75-77 *)
Definition isListType (s : string) : bool := has_prefix "[]" s.
(** 80-83 *)
Definition isMapType (s : string) : bool :=
  match cut ","%char s with
  | None => false
  | Some (k, v) => has_prefix "map<" k && has_suffix ">" v
  end.
(** 93-98, the string case *)
Definition mapKeyType (s : string) : result string :=
  match cut ","%char s with
  | None => Panic
  | Some (k, v) => if has_prefix "map<" k && has_suffix ">" v then Ok (trim_prefix "map<" k) else Panic
  end.
(** 103-110 *)
Definition mapValueType (s : string) : result string :=
  match cut ","%char s with
  | None => Panic
  | Some (k, v) => if has_prefix "map<" k && has_suffix ">" v then Ok (trim_suffix ">" v) else Panic
  end.
(** 119-124, the string case *)
Definition listElemType (s : string) : result string :=
  if has_prefix "[]" s then Ok (trim_prefix "[]" s) else Panic.

(** the VarType cases: 87-91 mapKeyType, 114-118 listElemType (nil dereference
    if the type is not a map / list) *)
Definition mapKeyTypeVT (v : varType) : result string :=
  match vt_shape v with ShMap k _ => Ok (vt_expr k) | _ => Panic end.
Definition listElemTypeVT (v : varType) : result varType :=
  match vt_shape v with ShList e => Ok e | _ => Panic end.

(** 16-31 isStructType, 54-69 isAliasType on a VarType *)
Definition isStructType (v : varType) : bool :=
  match vt_shape v with ShStruct _ _ => true | _ => false end.
Definition isAliasType (v : varType) : bool :=
  match vt_shape v with ShAlias _ _ => true | _ => false end.
(** 34-52 isEnumType on a VarType: the kind of the declaration it points to *)
Definition isEnumType (ts : list type) (v : varType) : bool :=
  match vt_shape v with
  | ShEnum _ d => match getType ts d with
                  | Some t => String.eqb (t_kind t) "enum"
                  | None => false
                  end
  | _ => false
  end.

(** ** funcmap_flow.go *)

(** strconv.Atoi: optional sign, decimal digits, 64-bit range *)
Fixpoint digits_val (s : string) (acc : Z) : Z :=
  match s with
  | EmptyString => acc
  | String c r => digits_val r (acc * 10 + (Z.of_N (N_of_byte c) - 48))%Z
  end.
Definition atoi (s : string) : option Z :=
  let body := match s with
              | String c r => if Ascii.eqb c "+" || Ascii.eqb c "-" then r else s
              | EmptyString => s
              end in
  if String.eqb body "" then None
  else if negb (sforall is_digit_byte body) then None
  else
    let n := digits_val body 0 in
    let n := if has_prefix "-" s then (- n)%Z else n in
    if ((-9223372036854775808 <=? n) && (n <=? 9223372036854775807))%Z then Some n else None.

(** funcmap_flow.go 57-75 parseMajorMinorVersion *)
Definition parseMajorMinor (v : string) : option (Z * Z) :=
  match split_byte "."%char (trim_prefix "v" v) with
  | [] => None
  | p0 :: r =>
      match atoi p0 with
      | None => None
      | Some major =>
          match r with
          | [] => Some (major, 0%Z)
          | p1 :: _ => match atoi p1 with
                       | None => None
                       | Some minor => Some (major, minor)
                       end
          end
      end
  end.

(** funcmap_flow.go 34-55 minVersion *)
Definition minVersion (version min : string) : result bool :=
  match parseMajorMinor version with
  | None => Panic
  | Some (major, minor) =>
      match parseMajorMinor min with
      | None => Panic
      | Some (minMajor, minMinor) =>
          if (major <? minMajor)%Z then Ok false
          else if (minor <? minMinor)%Z then Ok false
          else Ok true
      end
  end.

(** ** funcmap.go string helpers *)

(** strings.ToLower / ToUpper of the one-byte string input[:1]: an ASCII byte
    is mapped, a byte >= 128 is malformed UTF-8 and becomes U+FFFD *)
Definition fold1 (f : ascii -> ascii) (c : ascii) : string :=
  if (N_of_byte c <? 128)%N then String (f c) "" else encode [replacement].

(** funcmap.go 71-76 firstLetterToLower; also schema/var_name.go 11-17 TitleDowncase *)
Definition firstLetterToLower (s : string) : string :=
  match s with EmptyString => "" | String c r => (fold1 lower_byte c ++ r)%string end.
(** funcmap.go 77-82 firstLetterToUpper; also schema/var_name.go 21-27 TitleUpcase *)
Definition firstLetterToUpper (s : string) : string :=
  match s with EmptyString => "" | String c r => (fold1 upper_byte c ++ r)%string end.

Definition r_upper (r : N) : bool := in_range 65 90 r.
Definition r_lower (r : N) : bool := in_range 97 122 r.
Definition r_digit (r : N) : bool := in_range 48 57 r.

Fixpoint count_while (p : N -> bool) (l : list N) : nat :=
  match l with
  | [] => 0
  | x :: r => if p x then S (count_while p r) else 0
  end.

(** funcmap.go 83-120 firstWordToLower; [firstWordLen] is the loop variable j
    at the end (100-115).  The lower-cased prefix is ASCII. *)
Definition firstWordLen (l : list N) : nat :=
  match l with
  | [] => 0
  | x :: _ =>
      if r_upper x then
        let j := count_while r_upper l in
        let j := match nth_error l j, nth_error l (S j) with
                 | Some a, Some b => if (1 <? j) && r_lower a && r_lower b then (j - 1)%nat else j
                 | _, _ => j
                 end in
        j + count_while (fun r => r_lower r || r_digit r) (skipn j l)
      else count_while (fun r => r_lower r || r_digit r) l
  end.
Definition lower_rune (r : N) : N := if r_upper r then (r + 32)%N else r.
Definition firstWordToLower (s : string) : string :=
  match s with
  | EmptyString => ""
  | String c _ =>
      if is_lower_byte c then s
      else let l := decode s in
           let j := firstWordLen l in
           encode (map lower_rune (firstn j l) ++ skipn j l)
  end.

(** ** gen.go 143-164 webRPCGenHeader *)
Record headerVars := HeaderVars { hv_gen : string; hv_codegen : string; hv_codegenVersion : string;
                                  hv_schema : string; hv_schemaVersion : string; hv_hash : string }.
Definition webRPCGenHeader (h : headerVars) : string :=
  let cgv := if String.eqb (hv_codegenVersion h) "" then "unknown" else hv_codegenVersion h in
  let sv := if String.eqb (hv_schemaVersion h) ""
            then (hv_schema h ++ "@v0.0.0-" ++ hv_hash h)%string
            else (hv_schema h ++ "@" ++ hv_schemaVersion h)%string in
  (("webrpc@" ++ hv_gen h) ++ ";" ++ (hv_codegen h ++ "@" ++ cgv) ++ ";" ++ sv)%string.

(** tests/client/client.gen.go 614-642 parseWebrpcGenVersions *)
Record genVersions := GenVersions { gv_gen : string; gv_codegen : string; gv_codegenVersion : string;
                                    gv_schema : string; gv_schemaVersion : string }.
Definition parseGenVersions (header : string) : option genVersions :=
  match split_byte ";"%char header with
  | v0 :: v1 :: v2 :: _ =>
      match cut "@"%char v0, cut "@"%char v1, cut "@"%char v2 with
      | Some (_, g), Some (tn, tv), Some (sn, sv) => Some (GenVersions g tn tv sn sv)
      | _, _, _ => None
      end
  | _ => None
  end.

(** gen.go 113-117: CodeGenName and CodeGenVersion from the template version *)
Definition codeGenOf (tmplVersion : string) : string * string :=
  let base := match rev (split_byte "/"%char tmplVersion) with x :: _ => x | [] => "" end in
  match cut "@"%char base with Some p => p | None => (base, "") end.
