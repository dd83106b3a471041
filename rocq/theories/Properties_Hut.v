(* Properties_Hut.v -- C74: the constants have the numbers of the HID Usage Tables *)
From Coq Require Import ZArith List Bool String Lia.
From Verif Require Import Py Usage UsageTable UsageModules TableProofs HutSpec HutProofs.
Import ListNotations.
Local Open Scope list_scope.
Local Open Scope Z_scope.

#[local] Opaque t_arcade modules default_db hut db_after.

(** C74 (partial): a constant has the number the standard gives its usage,
    except for desktop.SystemDisplayRotationLockButton. *)
Theorem C74_partial : forall m ds d n,
  In (m, ds) modules -> In d ds -> hut_number m (u_attr d) n -> ~ In (m, u_attr d) misplaced -> u_value d = n.
Proof. exact c74_partial. Qed.
Print Assumptions C74_partial.

(** C74, exactly: that constant alone is off, of all but the nine of led whose
    number the list does not have. *)
Theorem C74_always : forall m ds d,
  In (m, ds) modules -> In d ds -> m <> "button"%string -> m <> "ordinal"%string ->
  ~ In (m, u_attr d) no_claim ->
  exists n, hut_number m (u_attr d) n /\ (u_value d = n <-> ~ In (m, u_attr d) misplaced).
Proof. exact c74_always. Qed.
Print Assumptions C74_always.

(** The list gives a usage one number only. *)
Theorem C74_single : forall m a n n', hut_number m a n -> hut_number m a n' -> n = n'.
Proof. exact hut_number_unique. Qed.
Print Assumptions C74_single.

(** The number of a usage of the standard is looked up as the constant of that
    name, after any calls; two usages of the LED page have no constant. *)
Theorem C74_named_partial : forall m a n h,
  hut_number m a n -> m <> "arcade"%string -> ~ In (m, a) undefined -> ~ In (m, a) misplaced -> Forall call_ok h ->
  exists ds d, In (m, ds) modules /\ In d ds /\ u_attr d = a /\ lookup (db_after h) (VInt n) = usage_of d.
Proof. exact c74_named. Qed.
Print Assumptions C74_named_partial.

(** C74 is false of one constant of desktop *)
Theorem C74_refuted : exists m ds d n,
  In (m, ds) modules /\ In d ds /\ hut_number m (u_attr d) n /\ u_value d <> n.
Proof. exact c74_refuted. Qed.
Print Assumptions C74_refuted.

(** and of all of arcade: right within the page, but on page 0xff00 where the
    standard has 0x91. *)
Theorem C74_arcade_always : forall d, In d t_arcade ->
  exists n, hut_number "arcade" (u_attr d) n /\ n / 65536 = 0x91 /\
    u_value d mod 65536 = n mod 65536 /\ u_value d / 65536 = 0xff00.
Proof. exact c74_arcade. Qed.
Print Assumptions C74_arcade_always.

Theorem C74_arcade_refuted : exists d n,
  In d t_arcade /\ hut_number "arcade" (u_attr d) n /\ u_value d <> n.
Proof. exact c74_arcade_refuted. Qed.
Print Assumptions C74_arcade_refuted.

Lemma zrange_in k a b : In k (zrange a b) <-> a <= k < b.
Proof.
  unfold zrange. rewrite in_map_iff. split.
  - intros [i [<- R]]. apply in_seq in R. lia.
  - intros R. exists (Z.to_nat (k - a)). split; [lia|]. apply in_seq. lia.
Qed.

Lemma c74_counted m ds d : In (m, ds) modules -> In d ds ->
  (m = "button"%string -> exists n, 0 <= n < 128 /\ u_name d = ("button.Button(" ++ dec_of_Z n ++ ")")%string /\ u_value d = 0x90000 + n) /\
  (m = "ordinal"%string -> exists n, 0 <= n < 128 /\ u_name d = ("ordinal.Ordinal(" ++ dec_of_Z n ++ ")")%string /\ u_value d = 0xa0000 + n).
Proof.
  intros I D.
  assert (F : Forall (fun p => (fst p = "button"%string -> snd p = t_button) /\ (fst p = "ordinal"%string -> snd p = t_ordinal)) modules).
  { Transparent modules. unfold modules. repeat constructor; cbn [fst snd]; intros E; try discriminate E; reflexivity. }
  rewrite Forall_forall in F. specialize (F _ I). cbn [fst snd] in F. destruct F as [FB FO].
  split; intros E; [rewrite (FB E) in D; unfold t_button in D|rewrite (FO E) in D; unfold t_ordinal in D];
    apply in_map_iff in D; destruct D as [n [<- R]]; exists n; (split; [|split; reflexivity]); apply zrange_in in R; lia.
Qed.
#[local] Opaque modules.

(** The usages of the two pages that have numbers for names: Button(n) and
    Ordinal(n) have number n in the page. *)
Theorem C74_counted : forall m ds d, In (m, ds) modules -> In d ds ->
  (m = "button"%string -> exists n, 0 <= n < 128 /\ u_name d = ("button.Button(" ++ dec_of_Z n ++ ")")%string /\ u_value d = 0x90000 + n) /\
  (m = "ordinal"%string -> exists n, 0 <= n < 128 /\ u_name d = ("ordinal.Ordinal(" ++ dec_of_Z n ++ ")")%string /\ u_value d = 0xa0000 + n).
Proof. exact c74_counted. Qed.
Print Assumptions C74_counted.

Example C74_case :
  hut_number "desktop" "Mouse" 0x10002 /\ hut_number "keyboard" "KeypadPlus" 0x70057 /\
  lookup (db_after [CButton 3]) (VInt 0x10002) = VUsage "desktop.Mouse" 0x10002 [CA].
Proof.
  split; [|split].
  - apply number_in_sound. vm_compute. reflexivity.
  - apply number_in_sound. vm_compute. reflexivity.
  - vm_compute. reflexivity.
Qed.

Example C74_counted_case : exists ds d, In ("button"%string, ds) modules /\ In d ds /\
  u_name d = "button.Button(17)"%string /\ u_value d = 0x90011.
Proof.
  exists t_button, (button_decl 17). split; [|split; [|split; reflexivity]].
  - Transparent modules. left. reflexivity.
  - unfold t_button. apply in_map. apply zrange_in. lia.
Qed.
