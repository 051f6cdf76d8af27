(** Corollaries used by Props_Load.v *)
From Coq Require Import DecimalString DecimalNat.
From Coq Require Decimal.
From Verif Require Import Base BaseProofs Graph GraphSpec GraphProofs Ast Parser Schema TypeSpec ValidateSpec ValidateProofs
  Uri Ridl LoadSpec LoadProofs DeclSpec DeclProofs.

(** ** what was read *)

Lemma reads_of_success fs u p st s : loadRun fs u p = (st, LOk s) -> forall q, In q (l_reads st) <-> ImportStar fs p q.
Proof.
  intros E q. pose proof (loadRun_ok fs u p) as H. rewrite E in H. destruct H as [_ (HI & HR & _ & HC & _)].
  rewrite (HR q). split.
  - intros Hq. eapply i_reach; [exact HI|]. destruct Hq as [Hq|[<-|[]]]; [now left|right; now left].
  - intro HS. assert (G : forall a b, ImportStar fs a b -> In a (keys st) -> In b (keys st)).
    { induction 1 as [a|a r b I _ IH]; intro Ha; [exact Ha|]. apply IH. eapply i_closed; eassumption. }
    destruct HS as [a|a r b I S]; [right; now left|]. left. apply (G r b S). now apply HC.
Qed.

Lemma error_outcome fs u p st e k : loadRun fs u p = (st, LErr e k) ->
  exists q, ImportStar fs p q /\ Blames fs u q e /\
    match k with
    | None => q = p
    | Some stack => exists mid, stack = q :: mid ++ [p] /\ ImportChain fs stack /\ NoDup stack
    end.
Proof.
  intro E. pose proof (loadRun_ok fs u p) as H. rewrite E in H. destruct H as [_ H]. destruct k as [stack|].
  - destruct H as (front & q & -> & HC & HB & HN). exists q. split.
    + eapply (chain_star fs _ HC); [reflexivity|]. change (q :: front ++ [p]) with ((q :: front) ++ [p]). apply last_last.
    + split; [exact HB|]. exists front. now repeat split.
  - exists p. split; [constructor|]. now split.
Qed.

(** ** decimal numbers *)

Lemma parse_uint d : forall acc,
  parse_digits (NilEmpty.string_of_uint d) (Z.of_nat acc) = Z.of_nat (Nat.of_uint_acc d acc).
Proof.
  induction d as [|d IH|d IH|d IH|d IH|d IH|d IH|d IH|d IH|d IH|d IH]; intro acc; [reflexivity|..].
  all: cbn [NilEmpty.string_of_uint parse_digits Nat.of_uint_acc]; rewrite <- IH; f_equal;
    rewrite Nat.tail_mul_spec; unfold digit_val;
    match goal with |- context [N_of_byte ?c] => let v := eval vm_compute in (N_of_byte c) in change (N_of_byte c) with v end;
    cbn [Nat.mul]; lia.
Qed.
Lemma itoa_value n : parse_digits (itoa n) 0 = Z.of_nat n.
Proof. unfold itoa. rewrite (parse_uint _ 0). f_equal. apply DecimalNat.Unsigned.of_to. Qed.
Lemma itoa_inj n m : itoa n = itoa m -> n = m.
Proof. intro E. apply Nat2Z.inj. rewrite <- !itoa_value. now rewrite E. Qed.
Lemma itoa_digits n : sforall is_digit_byte (itoa n) = true.
Proof. unfold itoa. generalize (Nat.to_uint n). intro d. induction d; cbn; auto. Qed.

(** ** enums *)

Lemma enum_values fs u p s t : LoadsTo fs u p s -> In t (sc_types s) -> t_kind t = "enum" ->
  exists e, Exports fs typeDecls declName p (t_id t) (DEnum e) /\ t_name t = e_name e /\
    length (t_fields t) = length (e_values e) /\
    (exists v, t_type t = Some v /\ vt_expr v = e_type e) /\
    (forall f, In f (t_fields t) -> f_value f <> "") /\
    NoDup (map (fun f => to_lower (f_name f)) (t_fields t)) /\
    forall i d f, nth_error (e_values e) i = Some d -> nth_error (t_fields t) i = Some f ->
      MemberOf (String.eqb (e_type e) "string") i d f.
Proof.
  intros HL Ht Hk. destruct (loaded_content _ _ _ _ HL) as [[C1 _] _ _ _ _].
  destruct (C1 t Ht) as (d & HE & Hn & Hkd & HT). destruct d as [a|e|x]; rewrite Hk in Hkd; try discriminate.
  exists e. split; [exact HE|]. split; [exact Hn|]. destruct HT as (_ & _ & HT1 & HT2 & HT3). split; [exact HT2|]. split; [exact HT1|].
  inversion HL as [q nodes imps s' HS HF HP]; subst. unfold Process in HP.
  apply bind_ok in HP as (s0 & _ & HP). apply bind_ok in HP as (s2 & _ & HV). apply validate_ok in HV.
  pose proof (ok_types _ _ HV) as HO. rewrite Forall_forall in HO. destruct (HO t Ht) as (_ & _ & HD).
  destruct HD as [(_ & HFo & HEn & _)|[(E & _)|(E & _)]]; [|rewrite Hk in E; discriminate|rewrite Hk in E; discriminate].
  rewrite Forall_forall in HEn. split; [intros f Hf; now apply HEn|]. split; [apply HFo|]. exact HT3.
Qed.

(** ** concrete file systems *)

Definition nl : string := String "010"%char "".
Definition lines (l : list string) : string := sconcat (map (fun x => x ++ nl)%string l).
Definition hdr (n : string) : list string := ["webrpc = v1"; "name = " ++ n; "version = v1"]%string.

(** a diamond: a imports b and c, which import d *)
Definition diamond : list (string * string) :=
  [("a.ridl", lines (hdr "a" ++ ["import"; "  - lib/b.ridl"; "  - lib/c.ridl"; "struct A"; "  - d: D"; "  - b: B"]));
   ("lib/b.ridl", lines (hdr "b" ++ ["import d.ridl"; "  - D"; "struct B"; "  - d: D"]));
   ("lib/c.ridl", lines (hdr "c" ++ ["import"; "  - ../lib/d.ridl"]));
   ("lib/d.ridl", lines (hdr "d" ++ ["struct D"; "  - id: uint64"; "enum E: uint8"; "  - ONE"; "  - TWO = 7"; "  - THREE";
                           "error 1 NotFound ""not found"" HTTP 404"; "service S"; "  - Ping()"]))]%string.

(** the same with d providing its service through both b and c *)
Definition serviceDiamond : list (string * string) :=
  [("a.ridl", lines (hdr "a" ++ ["import"; "  - b.ridl"; "  - c.ridl"]));
   ("b.ridl", lines (hdr "b" ++ ["import"; "  - d.ridl"]));
   ("c.ridl", lines (hdr "c" ++ ["import"; "  - d.ridl"]));
   ("d.ridl", lines (hdr "d" ++ ["service S"; "  - Ping()"]))]%string.

(** a takes one alias of b, but not the struct it stands for *)
Definition partialAlias : list (string * string) :=
  [("a.ridl", lines (hdr "a" ++ ["import b.ridl"; "  - UserID"; "struct A"; "  - id: UserID"]));
   ("b.ridl", lines (hdr "b" ++ ["struct Key"; "  - n: uint64"; "type UserID: Key"]))]%string.

(** two aliases that stand for each other *)
Definition cyclicAliases : list (string * string) :=
  [("a.ridl", lines (hdr "a" ++ ["type X: Y"; "type Y: X"; "struct S"; "  - x: X"]))]%string.

(** a imports b, b imports c, c imports b *)
Definition loop3 : list (string * string) :=
  [("a.ridl", lines (hdr "a" ++ ["import"; "  - b.ridl"]));
   ("b.ridl", lines (hdr "b" ++ ["import"; "  - c.ridl"]));
   ("c.ridl", lines (hdr "c" ++ ["import"; "  - b.ridl"]))]%string.

Definition dupEnum : list (string * string) :=
  [("a.ridl", lines (hdr "a" ++ ["enum E: uint8"; "  - ONE = 1"; "  - TWO"]))]%string.

(** a file with everything *)
Definition rich : list (string * string) :=
  [("a.ridl", lines (hdr "rich" ++
     ["# the state of a user"; "enum State: string"; "  - OK"; "  - BAD = no";
      "type Names: []string"; "  + go.type.name = NameList";
      "# A user."; "struct User"; "  - id?: uint64"; "    + json = ID"; "    # by state";
      "  - m: map<State,[]User>";
      "error 7 NotFound ""no such user"" HTTP 404";
      "service Users"; "  # fetch one"; "  @internal"; "  @auth:token"; "  - Get(id: uint64, n?: Names) => stream (user: User) errors NotFound";
      "  - Put(User) => (User)"; ""]))]%string.
