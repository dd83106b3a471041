(* Properties_Bytes.v -- C63, C64: what the decompiler takes from its
   registry; compiled trees come back from their bytes. *)
From Verif Require Import Py Usage Item Parser Optimizer Descriptor Extractor UsageModules HidSpec Spec StreamSpec OptSpec ExtractSpec
  ItemFacts ParserFacts OptFacts PassFacts StreamTree Properties_Stream ExtractSpec ExtractFacts ExtractView ExtractAgain
  BackSpec DumpSpec ExtractBack Properties_Extract Properties_Dump NameBack BytesBack.
Local Open Scope list_scope.
Local Open Scope Z_scope.

(** Two registries with the same NamedArray usages: the decompiler gives the
    same tree up to names, or the same exception. *)
Theorem C63 db db' blob : (forall z, array_usage db' z <-> array_usage db z) ->
  match decompile db blob, decompile db' blob with
  | Ok t, Ok t' => same_tree t t'
  | Err e, Err e' => e' = e
  | _, _ => False
  end.
Proof. exact (c63 db db' blob). Qed.
Print Assumptions C63.

(** every usage renamed, those that are no NamedArray without their types *)
Definition renamed (db : udb) : udb := fun z =>
  match db z with
  | Some (n, ks) => Some (("?" ++ n)%string, if existsb (utype_eqb NAry) ks then [NAry] else [])
  | None => Some ("unknown"%string, [])
  end.

Lemma renamed_types db z : array_usage (renamed db) z <-> array_usage db z.
Proof.
  unfold array_usage, renamed. destruct (db z) as [[n ks]|].
  - destruct (existsb (utype_eqb NAry) ks) eqn:E.
    + apply nary_in in E. split; intros _; do 2 eexists; (split; [reflexivity|]); [exact E|left; reflexivity].
    + split; intros [m [k [H I]]]; injection H as <- <-; [contradiction|]. exfalso. apply nary_in in I. congruence.
  - split; intros [m [k [H I]]]; [|discriminate]. injection H as <- <-. contradiction.
Qed.

Definition first_usage (t : tree) : option pval := match t with TTop (TReport _ (TColl _ u _ :: _) :: _) | TTop (TColl _ u _ :: _) => u | _ => None end.

Example C63_case : (forall z, array_usage (renamed default_db) z <-> array_usage default_db z) /\
  match decompile default_db blob50, decompile (renamed default_db) blob50 with
  | Ok t, Ok t' => first_usage t = Some (VUsage "desktop.Mouse" 0x10002 [CA]) /\ first_usage t' = Some (VUsage "?desktop.Mouse" 0x10002 [])
  | _, _ => False
  end.
Proof. split; [apply renamed_types|]. vm_compute. split; reflexivity. Qed.

(** The types do count: the usage 0xf0025 (pid.EffectType) on its collection
    makes a NamedArray with one registry and a collection with the other. *)
Definition effects64 : tree :=
  TTop [TColl (VNamed "Application" 1) mouse
    [TReport 1 [tv small; tv (mk_padding input 4); tv (arr49 (Some (VInt 0xf0025)) 0 1); tv (arr49 None 0 1);
                TColl (VInt 0) (Some (VNamed "Pointer" 0x10001)) [tv large; tv (mk_align input 16 (VInt 2))]];
     TReport 2 [tv (mk_value KValue (VArgs (VNamed "Feature" 11) (Some (VUsage "X" 0x10030 [NAry])) 12 (VInt 6) (Some (-100)) (Some 100) (Some 0) (Some 7)
                      None (VInt 0x11) 3 4 5 1 None))]]].

Definition bytes64 : list Z := match compile empty_db false effects64 with Ok b => b | Err _ => [] end.

Theorem C63_types : exists blob t t', decompile default_db blob = Ok t /\ decompile empty_db blob = Ok t' /\ ~ same_tree t t'.
Proof.
  exists bytes64, (tree_of (decompile default_db bytes64)), (tree_of (decompile empty_db bytes64)).
  split; [vm_compute; reflexivity|]. split; [vm_compute; reflexivity|].
  intros H. apply same_leaves with (r := 0) in H. apply like_len in H. vm_compute in H. discriminate H.
Qed.
Print Assumptions C63_types.

(** C64.  Full statement (false, see C64_refuted): without [restorable] and
    [settled].  As C49, on the bytes of the compiled descriptor and with any
    registry on each side: whether a usage is that of a NamedArray is what the
    decompiler finds in its registry. *)
Theorem C64_partial db db' t b : well_formed t -> kinds_ok t -> compile db false t = Ok b ->
  Forall (fun x => restorable db' (bare x)) (located [] (fst (threaded 0 t))) -> settled (fst (threaded 0 t)) ->
  exists t', decompile db' b = Ok t' /\
    Forall2 BackSpec.same_value (real_values (fst (threaded 0 t))) (real_values (scoped 0 t')).
Proof. exact (c64 db db' t b). Qed.
Print Assumptions C64_partial.

Example C64_case : well_formed effects64 /\ kinds_ok effects64 /\ compile empty_db false effects64 = Ok bytes64 /\
  Forall (fun x => restorable default_db (bare x)) (located [] (fst (threaded 0 effects64))) /\ settled (fst (threaded 0 effects64)) /\
  length bytes64 = 173%nat /\
  map brief (real_values (fst (threaded 0 effects64))) =
    [(1, [0x90001], 4, [], 0, 1); (1, [0xf0025], 8, [0x70004; 0x70005; 0x70009], 0, 1); (1, [], 8, [0x70004; 0x70005; 0x70009], 0, 1);
     (1, [0x10030], 8, [], 0, 1); (2, [0x10030], 12, [], 0x11, 1)].
Proof.
  split; [wf|]. split; [cbn; repeat split; discriminate|]. split; [vm_compute; reflexivity|]. split; [|split; [|split; vm_compute; reflexivity]].
  - match goal with |- Forall _ ?q => let q' := eval vm_compute in q in change q with q' end.
    repeat apply Forall_cons; [..|apply Forall_nil]; unfold restorable, bare; intros R; try discriminate R; clear R.
    all: split; [left; reflexivity|].
    all: match goal with |- if ?b then _ else _ => let b' := eval vm_compute in b in change b with b'; cbv iota end.
    all: try (intros X Y; vm_compute in X, Y; discriminate).
    all: split; [reflexivity|]; split; [reflexivity|].
    all: match goal with |- match ?b with _ => _ end => let b' := eval vm_compute in b in change b with b'; cbv iota end.
    + do 2 eexists. split; [discriminate|]. split; [vm_compute; reflexivity|left; reflexivity].
    + do 3 eexists. split; [reflexivity|]. split; [intros [X _]; discriminate X|intros [X _]; discriminate X].
  - match goal with |- settled ?q => let q' := eval vm_compute in q in change q with q' end.
    match goal with |- settled ?q => exists (removelast q), LClose, []; split; [reflexivity|]; split; [exact I|constructor] end.
Qed.

(** not given back: the trees of C49_refuted, and an array whose usage is of
    type NamedArray in the script but not in the registry of the decompiler *)
Definition lost64 : list tree := TTop [TColl (VNamed "Application" 1) mouse [tv (arr49 select 0 1)]] :: lost49.

Theorem C64_refuted : Forall (fun t => exists b, well_formed t /\ kinds_ok t /\ compile empty_db false t = Ok b /\
  ((exists e, decompile empty_db b = Err e) \/
   exists t', decompile empty_db b = Ok t' /\
     ~ Forall2 BackSpec.same_value (real_values (fst (threaded 0 t))) (real_values (scoped 0 t')))) lost64.
Proof.
  unfold lost64, lost49. repeat apply Forall_cons; [..|apply Forall_nil].
  all: match goal with |- exists b, well_formed ?t /\ _ => exists (match compile empty_db false t with Ok b => b | Err _ => [] end) end; split; [wf|]; split; [cbn; repeat split; discriminate|];
    split; [vm_compute; reflexivity|].
  5: left; eexists; vm_compute; reflexivity.
  all: right; match goal with |- exists t', decompile _ ?l = _ /\ _ => exists (tree_of (decompile empty_db l)) end; split; [vm_compute; reflexivity|].
  all: intros F; apply same_brief in F; vm_compute in F; discriminate F.
Qed.
Print Assumptions C64_refuted.
