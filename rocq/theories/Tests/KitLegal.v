(** The demonstration programs are legal. *)
From Coq Require Import String List NArith ZArith Arith Bool Lia.
From Verif.Spec Require Import Words Client Legal ObjClient ObjLegal Sp800185 CShakeArgs.
From Verif.Tests Require Import Kit KitObj KitValue.
Import ListNotations.

Lemma span_case l : span_okb l = true -> span_ok l.
Proof. apply span_okb_ok. Qed.

Ltac legal_steps :=
  repeat first
    [ apply le_nil
    | apply le_copy
    | eapply le_on; [first [apply lo_add, span_case; vm_compute; reflexivity | apply lo_fin | apply lo_reset | apply lo_array | apply lo_vector
        | (apply lo_string; assumption) | apply lo_uint | apply lo_std]|] ].

Lemma demo_is_legal (ne : Prop) : ne -> legal_program ne demo.
Proof. intros Hne. eexists. unfold demo. legal_steps. Qed.

(** three objects in an interleaving, the second and third copied from the first at different times *)
Definition interleaved : list cmd :=
  [On 0 (AddData (text "a")); CopyTo 1 0; On 0 (AddData (text "b")); On 1 (AddData (text "x")); CopyTo 2 0;
   On 0 Reset; On 2 (AddData (text "c")); On 1 (AddData (text "y")); On 0 (AddData (text "z"))].
Lemma interleaved_is_legal (ne : Prop) i : i < 3 -> legal_program ne (interleaved ++ [On i Finalize]).
Proof. intros Hi. destruct i as [|[|[|]]]; [| | |lia]; eexists; unfold interleaved; cbn [app]; legal_steps. Qed.
Lemma interleaved_fed :
  fed (own_calls interleaved 0) = text "z" /\ fed (own_calls interleaved 1) = text "axy" /\ fed (own_calls interleaved 2) = text "abc".
Proof. repeat split; vm_compute; reflexivity. Qed.

(** reset() on customized objects included *)
Definition cshake_allowed : list (ocmd (Z * list N * list N)) :=
  [Construct 0 (16%Z, text "name", text "custom"); Feed 0 (counting 200); CopyConstruct 1 0; Rst 0; Feed 0 (text "abc"); Fin 0; Str 0; Vec 0;
   Fin 1; Uint 1 4; CopyAssign 0 1; Vec 0; MoveConstruct 2 1; Rst 2; Fin 2; Std 2].
Lemma cshake_is_allowed : allowed cempty ok_cargs span_ok may_assign cshake_allowed.
Proof.
  eexists. eexists. unfold cshake_allowed.
  eapply or_silent; [apply os_construct; split; [lia|split; shorts]|].
  eapply or_silent; [eapply os_feed; [reflexivity|one_span]|].
  eapply or_silent; [eapply os_copy; reflexivity|].
  eapply or_silent; [eapply os_reset; [reflexivity|exact I]|].
  eapply or_silent; [eapply os_feed; [reflexivity|one_span]|].
  eapply or_silent; [eapply os_fin; reflexivity|].
  eapply or_seen; [eapply os_str; [reflexivity|cbn; discriminate]|].
  eapply or_seen; [eapply os_vec; reflexivity|].
  eapply or_silent; [eapply os_fin; reflexivity|].
  eapply or_seen; [eapply os_uint; reflexivity|].
  eapply or_silent; [eapply os_assign; reflexivity|].
  eapply or_seen; [eapply os_vec; reflexivity|].
  eapply or_silent; [eapply os_move; [discriminate|reflexivity]|].
  eapply or_silent; [eapply os_reset; [reflexivity|exact I]|].
  eapply or_silent; [eapply os_fin; reflexivity|].
  eapply or_seen; [eapply os_std; reflexivity|].
  apply or_nil.
Qed.
Definition tuple_allowed : list (ocmd (Z * list N)) :=
  [Construct 0 (16%Z, text "custom"); Feed 0 (counting 200); CopyConstruct 1 0; Rst 0; Feed 0 (text "abc"); Fin 0; Str 0; Fin 1; CopyAssign 0 1; Vec 0].
Lemma tuple_is_allowed : allowed tempty ok_targs short live_assign tuple_allowed.
Proof.
  eexists. eexists. unfold tuple_allowed.
  eapply or_silent; [apply os_construct; split; [lia|shorts]|].
  eapply or_silent; [eapply os_feed; [reflexivity|shorts]|].
  eapply or_silent; [eapply os_copy; reflexivity|].
  eapply or_silent; [eapply os_reset; [reflexivity|exact I]|].
  eapply or_silent; [eapply os_feed; [reflexivity|shorts]|].
  eapply or_silent; [eapply os_fin; reflexivity|].
  eapply or_seen; [eapply os_str; [reflexivity|cbn; discriminate]|].
  eapply or_silent; [eapply os_fin; reflexivity|].
  eapply or_silent; [eapply os_assign; [reflexivity|exact I]|].
  eapply or_seen; [eapply os_vec; reflexivity|].
  apply or_nil.
Qed.
