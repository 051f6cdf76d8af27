(** C15-C18, C36, C38: loading a RIDL file with its imports. Theorems only.
    [loadFile fs u p] is NewParser(fs, root, p).Parse(); [loadRun] also returns the final state of the
    loader, of which [l_reads] lists the files read and parsed, in order.
    Specifications: GraphSpec.v, LoadSpec.v, DeclSpec.v. *)
From Verif Require Import Base BaseProofs Graph GraphSpec GraphProofs Ast Parser Schema TypeSpec ValidateSpec Uri Ridl
  LoadSpec LoadProofs DeclSpec DeclProofs PropsLoadAux BigSpec GoBigProofs NumProofs.

(** C15. The cycle check always gives an answer, and answers yes exactly for the graphs in which some
    node reaches a cycle. *)
Theorem C15_cycle_check_is_exact : forall g, exists b, isCircular g = Some b /\ (b = true <-> Circular g).
Proof. exact isCircular_ok. Qed.
Print Assumptions C15_cycle_check_is_exact.

(** C15. A "circular import" error is right: the file it names imports the other, which leads back. *)
Theorem C15_circular_import_errors_are_right : forall fs u p imported file stack,
  loadFile fs u p = LErr (ECircular imported file) stack ->
  ImportStar fs p file /\ Imports fs file imported /\ ImportStar fs imported file.
Proof.
  intros fs u p i f k H. unfold loadFile in H. destruct (loadRun fs u p) as [st x] eqn:E. cbn in H. subst x.
  destruct (error_outcome _ _ _ _ _ _ E) as (q & HS & (-> & HB) & _). now split.
Qed.
Print Assumptions C15_circular_import_errors_are_right.

(** C15. Files with a cycle among their imports never load. *)
Theorem C15_cyclic_imports_are_rejected : forall fs u p q s,
  ImportStar fs p q -> ImportCycle fs q -> loadFile fs u p <> LOk s.
Proof.
  intros fs u p q s HS HC H. apply loadFile_iff in H. destruct (LoadsTo_star _ _ _ _ HS _ H) as (s' & H').
  exact (LoadsTo_no_cycle _ _ _ _ H' HC).
Qed.
Print Assumptions C15_cyclic_imports_are_rejected.

Example C15_example : Circular (l_graph (fst (loadRun loop3 goUriOk "a.ridl"))) /\
  loadFile loop3 goUriOk "a.ridl" = LErr (ECircular "b.ridl" "c.ridl") (Some ["c.ridl"; "b.ridl"; "a.ridl"]).
Proof.
  split; [|vm_compute; reflexivity].
  destruct (isCircular_ok (l_graph (fst (loadRun loop3 goUriOk "a.ridl")))) as (b & E & Hb). apply Hb.
  vm_compute in E. congruence.
Qed.

(** C16. Loading terminates, whatever the imports: the recursion is never deeper than the number of
    files plus one.  ([LFuel] would be a deeper recursion, or the parser's endless loop of C04.) *)
Theorem C16_loading_terminates : forall fs u p,
  (forall q src, ImportStar fs p q -> assoc q fs = Some src -> parseRidl src <> ParseLoop) ->
  loadFile fs u p <> LFuel.
Proof.
  intros fs u p H E. unfold loadFile in E. pose proof (loadRun_ok fs u p) as HP.
  destruct (loadRun fs u p) as [st x]. cbn in E. subst x. destruct HP as (_ & q & src & H1 & H2 & H3). exact (H q src H1 H2 H3).
Qed.
Print Assumptions C16_loading_terminates.

(** C16. No file is read or parsed twice, in any outcome. *)
Theorem C16_no_file_is_read_twice : forall fs u p, NoDup (l_reads (fst (loadRun fs u p))).
Proof. intros fs u p. pose proof (loadRun_ok fs u p) as H. destruct (loadRun fs u p) as [st x]. apply H. Qed.
Print Assumptions C16_no_file_is_read_twice.

(** C16. A successful load has read exactly the files the root leads to. *)
Theorem C16_success_has_read_every_reachable_file : forall fs u p st s,
  loadRun fs u p = (st, LOk s) -> forall q, In q (l_reads st) <-> ImportStar fs p q.
Proof. exact reads_of_success. Qed.
Print Assumptions C16_success_has_read_every_reachable_file.

(** C16. Cache, graph and recursion are transparent: the result is the one defined over the import
    tree, and there is no other. *)
Theorem C16_result_is_that_of_the_import_tree : forall fs u p s, loadFile fs u p = LOk s <-> LoadsTo fs u p s.
Proof. exact loadFile_iff. Qed.
Print Assumptions C16_result_is_that_of_the_import_tree.

(** C16. The outcomes: a schema, an error that is really there, a crash of some file's declarations
    (C07, C14), or the parser's endless loop. *)
Theorem C16_outcomes : forall fs u p,
  match loadFile fs u p with
  | LOk s => LoadsTo fs u p s
  | LErr e _ => exists q, ImportStar fs p q /\ Blames fs u q e
  | LPanic => exists q, ImportStar fs p q /\ Crashes fs u q
  | LFuel => exists q src, ImportStar fs p q /\ assoc q fs = Some src /\ parseRidl src = ParseLoop
  end.
Proof.
  intros fs u p. unfold loadFile. pose proof (loadRun_ok fs u p) as HP. destruct (loadRun fs u p) as [st x] eqn:E. cbn [snd].
  destruct x as [s|e k| |].
  - apply HP.
  - destruct (error_outcome _ _ _ _ _ _ E) as (q & H1 & H2 & _). now exists q.
  - apply HP.
  - apply HP.
Qed.
Print Assumptions C16_outcomes.

Example C16_example : exists st s, loadRun diamond goUriOk "a.ridl" = (st, LOk s) /\
  l_reads st = ["a.ridl"; "lib/b.ridl"; "lib/d.ridl"; "lib/c.ridl"].
Proof. eexists _, _. vm_compute. split; reflexivity. Qed.

(** C17. The types of a loaded schema are the types the file exports (its own and the requested ones
    of its imports, see Exports), each once. *)
Theorem C17_types_are_the_exported_ones : forall fs u p s, loadFile fs u p = LOk s ->
  (forall id kind name,
     (exists t, In t (sc_types s) /\ t_id t = id /\ t_kind t = kind /\ t_name t = name) <->
     (exists d, Exports fs typeDecls declName p id d /\ declKind d = kind /\ declName d = name)) /\
  NoDup (map t_id (sc_types s)).
Proof.
  intros fs u p s H. apply loadFile_iff, loaded_content in H. destruct H as [[C1 C2] CN _ _ _]. split; [|exact CN].
  intros id kind name. split.
  - intros (t & Ht & <- & <- & <-). destruct (C1 t Ht) as (d & HE & E1 & E2 & _). exists d. now repeat split.
  - intros (d & HE & <- & <-). destruct (C2 id d HE) as (t & Ht & Eid). destruct (C1 t Ht) as (d' & HE' & E1 & E2 & _).
    rewrite Eid in HE'. rewrite (exports_fun _ _ _ _ _ _ _ _ HE HE'). exists t. now repeat split.
Qed.
Print Assumptions C17_types_are_the_exported_ones.

(** C17. The same for errors: each exported error once, with its code, message and status. *)
Theorem C17_errors_are_the_exported_ones : forall fs u p s, loadFile fs u p = LOk s ->
  (forall x, In x (sc_errors s) -> exists en, Exports fs errors_of errName p (x_id x) en /\ ErrorOf en x) /\
  (forall id en, Exports fs errors_of errName p id en -> exists x, In x (sc_errors s) /\ x_id x = id /\ ErrorOf en x) /\
  NoDup (map x_id (sc_errors s)).
Proof.
  intros fs u p s H. apply loadFile_iff, loaded_content in H. destruct H as [_ _ [C1 C2] CN _]. split; [exact C1|]. split; [|exact CN].
  intros id en HE. destruct (C2 id en HE) as (x & Hx & Eid). exists x. split; [exact Hx|]. split; [exact Eid|].
  destruct (C1 x Hx) as (d' & HE' & HR). rewrite Eid in HE'. now rewrite (exports_fun _ _ _ _ _ _ _ _ HE HE').
Qed.
Print Assumptions C17_errors_are_the_exported_ones.

(** C17. The same for services, except that a service that arrives on several ways is repeated. *)
Theorem C17_services_are_the_exported_ones : forall fs u p s, loadFile fs u p = LOk s ->
  (forall v, In v (sc_services s) -> exists sn, Exports fs services_of sv_name p (v_id v) sn /\ ServiceOf sn v) /\
  (forall id sn, Exports fs services_of sv_name p id sn -> exists v, In v (sc_services s) /\ v_id v = id /\ ServiceOf sn v).
Proof.
  intros fs u p s H. apply loadFile_iff, loaded_content in H. destruct H as [_ _ _ _ [C1 C2]]. split; [exact C1|].
  intros id en HE. destruct (C2 id en HE) as (x & Hx & Eid). exists x. split; [exact Hx|]. split; [exact Eid|].
  destruct (C1 x Hx) as (d' & HE' & HR). rewrite Eid in HE'. now rewrite (exports_fun _ _ _ _ _ _ _ _ HE HE').
Qed.
Print Assumptions C17_services_are_the_exported_ones.

(** C17. "A service reachable through several import paths appears once" is false. *)
Theorem C17_services_once_refuted : exists fs p s, loadFile fs goUriOk p = LOk s /\ map v_name (sc_services s) = ["S"; "S"].
Proof. exists serviceDiamond, "a.ridl". eexists. split; vm_compute; reflexivity. Qed.
Print Assumptions C17_services_once_refuted.

(** C17. An import list is not closed: a file may import an alias without the struct it stands for, and the
    loaded schema then refers to a type it does not contain. *)
Theorem C17_imported_alias_dangles_refuted : exists fs p s t n, loadFile fs goUriOk p = LOk s /\ In t (sc_types s) /\
  t_kind t = "alias" /\ t_type t = Some (VT n (ShStruct n n)) /\ ~ In n (map t_name (sc_types s)).
Proof.
  exists partialAlias, "a.ridl". eexists _, _, "Key". split; [vm_compute; reflexivity|].
  split; [cbn; left; reflexivity|]. split; [reflexivity|]. split; [reflexivity|]. cbn. intuition discriminate.
Qed.
Print Assumptions C17_imported_alias_dangles_refuted.

(** C17. Aliases may stand for each other in a circle: such a file loads. *)
Theorem C17_circular_aliases_refuted : exists fs p s, loadFile fs goUriOk p = LOk s /\
  map (fun t => (t_name t, option_map vt_expr (t_type t))) (sc_types s) = [("X", Some "Y"); ("Y", Some "X"); ("S", None)].
Proof. exists cyclicAliases, "a.ridl". eexists. split; vm_compute; reflexivity. Qed.
Print Assumptions C17_circular_aliases_refuted.

(** [E] comes through c only: the import of d in b lists D *)
Example C17_example : exists s, loadFile diamond goUriOk "a.ridl" = LOk s /\
  map (fun t => (t_id t, t_name t)) (sc_types s) =
    [(("lib/d.ridl", 1), "D"); (("lib/b.ridl", 0), "B"); (("lib/d.ridl", 0), "E"); (("a.ridl", 0), "A")] /\
  map x_name (sc_errors s) = ["NotFound"].
Proof. eexists. split; [|split]; vm_compute; reflexivity. Qed.
Example C17_example_exports : exists e, Exports diamond typeDecls declName "a.ridl" ("lib/d.ridl", 0) (DEnum e) /\ e_name e = "E".
Proof.
  assert (H : exists s t, loadFile diamond goUriOk "a.ridl" = LOk s /\ In t (sc_types s) /\ t_id t = ("lib/d.ridl", 0) /\ t_kind t = "enum" /\ t_name t = "E").
  { eexists _, _. split; [vm_compute; reflexivity|]. split; [cbn; right; right; left; reflexivity|]. now vm_compute. }
  destruct H as (s & t & H & Ht & Hid & Hk & Hn). apply loadFile_iff in H.
  destruct (enum_values _ _ _ _ _ H Ht Hk) as (e & HE & En & _). exists e. rewrite Hid in HE. split; [exact HE|congruence].
Qed.

(** C18. An error inside an import carries the chain of files from the failing one to the root, each
    imported by the next and no file twice; the error is a fault of the first.  An error of the root
    itself carries no chain. *)
Theorem C18_import_errors_carry_the_chain : forall fs u p e k, loadFile fs u p = LErr e k ->
  exists q, Blames fs u q e /\
    match k with
    | None => q = p
    | Some stack => exists mid, stack = q :: mid ++ [p] /\ ImportChain fs stack /\ NoDup stack
    end.
Proof.
  intros fs u p e k H. unfold loadFile in H. destruct (loadRun fs u p) as [st x] eqn:E. cbn in H. subst x.
  destruct (error_outcome _ _ _ _ _ _ E) as (q & _ & H2 & H3). now exists q.
Qed.
Print Assumptions C18_import_errors_carry_the_chain.

Example C18_example : loadFile (removelast diamond) goUriOk "a.ridl" =
  LErr (ENoFile "lib/d.ridl") (Some ["lib/d.ridl"; "lib/b.ridl"; "a.ridl"]).
Proof. vm_compute. reflexivity. Qed.

(** C36. Every enum of a loaded schema is an exported enum declaration, with its members in order;
    each has a value: the declared one, else its name (enums over string) or its index in decimal. *)
Theorem C36_members_have_their_values : forall fs u p s t, loadFile fs u p = LOk s ->
  In t (sc_types s) -> t_kind t = "enum" ->
  exists e, Exports fs typeDecls declName p (t_id t) (DEnum e) /\ t_name t = e_name e /\
    length (t_fields t) = length (e_values e) /\
    forall i d f, nth_error (e_values e) i = Some d -> nth_error (t_fields t) i = Some f ->
      f_name f = d_left d /\ f_value f <> "" /\
      (d_right d <> "" -> f_value f = d_right d) /\
      (d_right d = "" -> e_type e = "string" -> f_value f = d_left d) /\
      (d_right d = "" -> e_type e <> "string" ->
         sforall is_digit_byte (f_value f) = true /\ parse_digits (f_value f) 0 = Z.of_nat i).
Proof.
  intros fs u p s t H Ht Hk. apply loadFile_iff in H. destruct (enum_values _ _ _ _ _ H Ht Hk) as (e & H1 & H2 & H3 & _ & H4 & _ & H5).
  exists e. split; [exact H1|]. split; [exact H2|]. split; [exact H3|]. intros i d f Hd Hf.
  destruct (H5 i d f Hd Hf) as (M1 & _ & _ & _ & _ & M2 & M3). split; [exact M1|]. split; [apply H4; eapply nth_error_In; eassumption|].
  split; [exact M2|]. split.
  - intros E1 E2. rewrite (M3 E1), E2. reflexivity.
  - intros E1 E2. rewrite (M3 E1). apply String.eqb_neq in E2. rewrite E2. split; [apply itoa_digits|apply itoa_value].
Qed.
Print Assumptions C36_members_have_their_values.

(** C36. Values that are not declared are distinct. *)
Theorem C36_implicit_values_are_distinct : forall fs u p s t e, loadFile fs u p = LOk s ->
  In t (sc_types s) -> Exports fs typeDecls declName p (t_id t) (DEnum e) ->
  forall i j d d' f f', i <> j ->
    nth_error (e_values e) i = Some d -> nth_error (e_values e) j = Some d' ->
    nth_error (t_fields t) i = Some f -> nth_error (t_fields t) j = Some f' ->
    d_right d = "" -> d_right d' = "" -> f_value f <> f_value f'.
Proof.
  intros fs u p s t e H Ht HE i j d d' f f' Hij Hd Hd' Hf Hf' E E' EQ. apply loadFile_iff in H.
  assert (Hk : t_kind t = "enum").
  { destruct (loaded_content _ _ _ _ H) as [[C1 _] _ _ _ _]. destruct (C1 t Ht) as (x & HE' & _ & Hk & _).
    rewrite (exports_fun _ _ _ _ _ _ _ _ HE' HE) in Hk. exact Hk. }
  destruct (enum_values _ _ _ _ _ H Ht Hk) as (e' & HE' & _ & _ & _ & _ & HN & H5).
  pose proof (exports_fun _ _ _ _ _ _ _ _ HE' HE) as X. injection X as ->.
  destruct (H5 i d f Hd Hf) as (M1 & _ & _ & _ & _ & _ & M3). destruct (H5 j d' f' Hd' Hf') as (N1 & _ & _ & _ & _ & _ & N3).
  rewrite (M3 E), (N3 E') in EQ. destruct (String.eqb (e_type e) "string").
  - apply Hij. assert (Hlt : i < length (t_fields t)) by (apply nth_error_Some; congruence).
    rewrite NoDup_nth_error in HN. apply HN; [now rewrite map_length|].
    rewrite (map_nth_error _ _ _ Hf), (map_nth_error _ _ _ Hf'). now rewrite M1, N1, EQ.
  - apply Hij. now apply itoa_inj.
Qed.
Print Assumptions C36_implicit_values_are_distinct.

(** C36. "The members of an enum have distinct values" is false: ONE = 1 and TWO without a value. *)
Theorem C36_distinct_values_refuted : exists fs p s t, loadFile fs goUriOk p = LOk s /\ sc_types s = [t] /\
  map (fun f => (f_name f, f_value f)) (t_fields t) = [("ONE", "1"); ("TWO", "1")].
Proof. exists dupEnum, "a.ridl". eexists _, _. split; [|split]; vm_compute; reflexivity. Qed.
Print Assumptions C36_distinct_values_refuted.

Example C36_example : exists s t, loadFile diamond goUriOk "a.ridl" = LOk s /\ In t (sc_types s) /\ t_kind t = "enum" /\
  map (fun f => (f_name f, f_value f)) (t_fields t) = [("ONE", "0"); ("TWO", "7"); ("THREE", "2")].
Proof. eexists _, _. split; [vm_compute; reflexivity|]. split; [cbn; right; right; left; reflexivity|]. now vm_compute. Qed.

(** C38. A loaded schema says what the files declare: each of its types has the name, kind, comments,
    meta data and fields or members of the declaration it stands for, in order, and every reference is
    written as in the file (unless a component is missing in it, C06). *)
Theorem C38_types_say_what_was_declared : forall fs u p s t, loadFile fs u p = LOk s -> In t (sc_types s) ->
  exists d, Exports fs typeDecls declName p (t_id t) d /\ TypeOf d t.
Proof. intros fs u p s t H Ht. apply loadFile_iff, loaded_content in H. now apply (c_types _ _ _ H). Qed.
Print Assumptions C38_types_say_what_was_declared.

(** C38. Methods, arguments, streams, annotations, error lists, comments: see ServiceOf. *)
Theorem C38_services_say_what_was_declared : forall fs u p s v, loadFile fs u p = LOk s -> In v (sc_services s) ->
  exists sn, Exports fs services_of sv_name p (v_id v) sn /\ ServiceOf sn v.
Proof. intros fs u p s v H Ht. apply loadFile_iff, loaded_content in H. now apply (c_services _ _ _ H). Qed.
Print Assumptions C38_services_say_what_was_declared.

(** C38. The header of the schema is that of the root file. *)
Theorem C38_header_is_the_roots : forall fs u p s nodes, loadFile fs u p = LOk s -> Source fs p nodes ->
  forall key get, In (key, get) [("webrpc", sc_webrpc); ("name", sc_name); ("version", sc_version)] ->
    (forall d, In d (definitions nodes) -> d_left d = key -> d_right d <> "" -> get s = d_right d) /\
    ((forall d, In d (definitions nodes) -> d_left d <> key) -> get s = "").
Proof.
  intros fs u p s nodes H HS key get Hk. apply loadFile_iff in H.
  destruct Hk as [E|[E|[E|[]]]]; injection E as <- <-.
  - apply (loaded_header _ _ _ _ _ "webrpc" H HS). cbn. tauto.
  - apply (loaded_header _ _ _ _ _ "name" H HS). cbn. tauto.
  - apply (loaded_header _ _ _ _ _ "version" H HS). cbn. tauto.
Qed.
Print Assumptions C38_header_is_the_roots.

Example C38_example : exists s, loadFile rich goUriOk "a.ridl" = LOk s /\ sc_name s = "rich" /\
  map (fun t => (t_name t, t_kind t, t_comments t, map (fun f => (f_name f, f_optional f, f_comments f, f_value f, option_map vt_expr (f_type f))) (t_fields t))) (sc_types s) =
   [("Names", "alias", [], []);
    ("State", "enum", [], [("OK", false, [], "OK", None); ("BAD", false, [], "no", None)]);
    ("User", "struct", ["A user."], [("id", true, [], "", Some "uint64"); ("m", false, ["by state"], "", Some "map<State,[]User>")])] /\
  map (fun v => (v_name v, map (fun m => (me_name m, me_comments m, me_annotations m, (me_succinct m, me_stream_in m, me_stream_out m),
     (map (fun a => (g_name a, g_optional a, option_map vt_expr (g_type a))) (me_inputs m), length (me_outputs m)), me_errors m)) (v_methods v))) (sc_services s) =
   [("Users", [("Get", [], [("internal", ("internal", "")); ("auth", ("auth", "token"))], (false, false, true),
                ([("id", false, Some "uint64"); ("n", true, Some "Names")], 1), ["NotFound"]);
               ("Put", [], [], (true, false, false), ([("user", false, Some "User")], 1), [])])].
Proof. eexists. split; [vm_compute; reflexivity|]. split; [vm_compute; reflexivity|]. split; vm_compute; reflexivity. Qed.

(** C38. The numbers of error declarations that fit 31 bits are the schema's: code and status as written, 400 if none is. *)
Theorem C38_error_numbers : forall fs u p s x, loadFile fs u p = LOk s -> In x (sc_errors s) ->
  exists en, Exports fs errors_of errName p (x_id x) en /\ x_message x = er_message en /\
    (forall n, DigitsOf (er_code en) n -> (n < 2147483648)%N -> x_code x = Z.of_N n) /\
    (forall t n, er_status en = Some t -> DigitsOf t n -> (n < 2147483648)%N -> x_status x = Z.of_N n) /\
    (er_status en = None -> x_status x = 400%Z).
Proof.
  intros fs u p s x H Hx.
  destruct (proj1 (C17_errors_are_the_exported_ones _ _ _ _ H) x Hx) as (en & HE & E1 & E2 & E3 & E4).
  exists en. split; [exact HE|]. split; [exact E2|]. split; [|split].
  - intros n D Hn. apply (number_fun (er_code en)); [exact E3|]. left. exists n. split; [exact D|]. lia.
  - intros t n Et D Hn. rewrite Et in E4. apply (number_fun t); [exact E4|]. left. exists n. split; [exact D|]. lia.
  - intros Et. now rewrite Et in E4.
Qed.
Print Assumptions C38_error_numbers.

(** "The code of an error is the number written" is false: larger numbers are silently replaced by 2147483647, *)
Theorem C38_error_codes_saturate_refuted : exists fs p s en x n, loadFile fs goUriOk p = LOk s /\
  In x (sc_errors s) /\ Exports fs errors_of errName p (x_id x) en /\
  DigitsOf (er_code en) n /\ x_code x <> Z.of_N n.
Proof.
  exists [("a.ridl", lines ["webrpc = v1"; "name = a"; "version = v1.0.0"; "error 3000000000 Big ""too big"""])], "a.ridl".
  eexists _, (ErrN "3000000000" "Big" "too big" None), _, 3000000000%N. split; [vm_compute; reflexivity|].
  split; [left; reflexivity|]. split; [|split].
  - eapply Own; [split; [reflexivity|eexists; split; [reflexivity|vm_compute; reflexivity]]|vm_compute; reflexivity].
  - change 3000000000%N with (sval "3000000000" 0). apply sval_DigitsOf; [reflexivity|discriminate].
  - cbn. discriminate.
Qed.
Print Assumptions C38_error_codes_saturate_refuted.

(** so that two errors with different codes are refused as duplicates. *)
Theorem C38_distinct_error_codes_refuted : exists e k,
  loadFile [("a.ridl", lines ["webrpc = v1"; "name = a"; "version = v1.0.0"; "error 3000000000 Big ""too big""";
                              "error 4000000000 Bigger ""bigger"""])] goUriOk "a.ridl" = LErr e k.
Proof. eexists _, _. vm_compute. reflexivity. Qed.
Print Assumptions C38_distinct_error_codes_refuted.
