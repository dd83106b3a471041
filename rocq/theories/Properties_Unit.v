(* Properties_Unit.v -- C86: what the units of hrdc.descriptor.Unit measure. *)
From Coq Require Import ZifyBool.
From Verif Require Import Py Usage Item UsageProofs UnitSpec.
Local Open Scope string_scope.
Local Open Scope list_scope.
Local Open Scope Z_scope.

(** A system combined with exponents by | measures just that. *)
Lemma c86_composed s l m t k c i b :
  bases s = Some b ->
  Forall (fun x => -8 <= x <= 7) [l; m; t; k; c; i] ->
  exists l' m' t' k' c' i',
    unit_length l = Ok l' /\ unit_mass m = Ok m' /\ unit_time t = Ok t' /\
    unit_temperature k = Ok k' /\ unit_current c = Ok c' /\ unit_luminousintensity i = Ok i' /\
    measures (Z.lor (Z.lor (Z.lor (Z.lor (Z.lor (Z.lor s l') m') t') k') c') i') =
    Some (powers b [l; m; t; k; c; i]).
Proof.
  intros B F. assert (S : 0 <= s < 16).
  { unfold bases in B. destruct s as [|p|p]; try discriminate.
    destruct p as [q|q|]; try discriminate; [| |lia]; destruct q as [r|r|]; try discriminate; try lia.
    destruct r; try discriminate. lia. }
  destruct (c14 s l m t k c i S F) as [l' [m' [t' [k' [c' [i' [H1 [H2 [H3 [H4 [H5 [H6 H]]]]]]]]]]]].
  exists l', m', t', k', c', i'. cbv zeta in H. destruct H as [_ [HS [N1 [N2 [N3 [N4 [N5 N6]]]]]]].
  repeat (split; [assumption|]). unfold measures. rewrite HS, B. f_equal. f_equal. cbn [map].
  unfold nibble in *. unfold exponent. cbv zeta in *.
  change (Z.of_nat 1) with 1 in N1. change (Z.of_nat 2) with 2 in N2. change (Z.of_nat 3) with 3 in N3.
  change (Z.of_nat 4) with 4 in N4. change (Z.of_nat 5) with 5 in N5. change (Z.of_nat 6) with 6 in N6.
  rewrite N1, N2, N3, N4, N5, N6. reflexivity.
Qed.

Theorem C86_composed : forall s l m t k c i b,
  bases s = Some b ->
  Forall (fun x => -8 <= x <= 7) [l; m; t; k; c; i] ->
  exists l' m' t' k' c' i',
    unit_length l = Ok l' /\ unit_mass m = Ok m' /\ unit_time t = Ok t' /\
    unit_temperature k = Ok k' /\ unit_current c = Ok c' /\ unit_luminousintensity i = Ok i' /\
    measures (Z.lor (Z.lor (Z.lor (Z.lor (Z.lor (Z.lor s l') m') t') k') c') i') =
    Some (powers b [l; m; t; k; c; i]).
Proof. exact c86_composed. Qed.
Print Assumptions C86_composed.

(** watts in the SI linear system: cm^2 g s^-3 *)
Example C86_composed_case :
  bases SILinear <> None /\ Forall (fun x => -8 <= x <= 7) [2; 1; -3; 0; 0; 0] /\
  measures 0xd121 = Some [("centimeter", 2); ("gram", 1); ("second", -3)].
Proof. split; [discriminate|]. split; [repeat constructor; discriminate|reflexivity]. Qed.

(** The constants without a system. *)
Definition unsystematic (name : string) : bool := existsb (String.eqb name) ["Second"; "Ampere"; "Candela"].

(** Every other constant measures what its name says; these three are no unit
    at all, since system 0 is "None". *)
Theorem C86_partial : forall name printed code,
  In (name, printed, code) usual_units ->
  meant name <> None /\
  (unsystematic name = false -> measures code = meant name) /\
  (unsystematic name = true -> measures code = None /\ measures (Z.lor SILinear code) = meant name).
Proof.
  intros name printed code I. unfold usual_units in I. cbn [In] in I.
  repeat (destruct I as [E|I]; [injection E as <- <- <-; vm_compute; repeat split; discriminate|]). destruct I.
Qed.
Print Assumptions C86_partial.

Theorem C86_refuted : exists name printed code,
  In (name, printed, code) usual_units /\ meant name <> None /\ measures code <> meant name.
Proof.
  exists "Second", "Second", 0x1000. split; [|split; discriminate].
  unfold usual_units. do 6 right. left. reflexivity.
Qed.
Print Assumptions C86_refuted.

Example C86_case :
  In ("Volt", "Volt", 0xf0d121) usual_units /\ unsystematic "Volt" = false /\
  measures 0xf0d121 = Some [("centimeter", 2); ("gram", 1); ("second", -3); ("ampere", -1)] /\
  length usual_units = 17%nat.
Proof. split; [unfold usual_units; do 16 right; left; reflexivity|]. repeat split. Qed.
