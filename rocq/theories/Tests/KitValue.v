(** A program with copies, moves, assignments and a reset, for classes without copy operations of their own. *)
From Coq Require Import String List NArith Arith Bool Lia.
From Verif.Spec Require Import Words Client ObjClient.
From Verif.Base Require Import Res.
From Verif.Model Require Import ObjApi.
From Verif.Tests Require Import Kit.
Import ListNotations.
Local Open Scope N_scope.

Definition value_program {A} (a b : A) : list (ocmd A) :=
  [Construct 0 a; Feed 0 [0; 1; 2]; Construct 1 b; Feed 1 [9]; CopyConstruct 2 0; Feed 0 (counting 200); CopyAssign 1 2;
   Feed 1 [3; 4]; Fin 1; Vec 1; MoveConstruct 3 0; Fin 3; Str 3; MoveAssign 1 2; Feed 1 [7]; Fin 1; Uint 1 4; Std 3].

Section Steps.
  Context {A : Type} {hash : A -> list (list N) -> list N} {ok_args : A -> Prop} {ok_item : list N -> Prop} {may_reset : A -> Prop} {may_assign : slot A -> A -> Prop}.
  Lemma or_silent c rest s s1 os s' : ostep hash ok_args ok_item may_reset may_assign c s s1 None ->
    orun hash ok_args ok_item may_reset may_assign rest s1 os s' -> orun hash ok_args ok_item may_reset may_assign (c :: rest) s os s'.
  Proof. intros H1 H2. exact (or_cons _ _ _ _ _ c rest s s1 None os s' H1 H2). Qed.
  Lemma or_seen c rest s s1 w os s' : ostep hash ok_args ok_item may_reset may_assign c s s1 (Some w) ->
    orun hash ok_args ok_item may_reset may_assign rest s1 os s' -> orun hash ok_args ok_item may_reset may_assign (c :: rest) s (w :: os) s'.
  Proof. intros H1 H2. exact (or_cons _ _ _ _ _ c rest s s1 (Some w) os s' H1 H2). Qed.
End Steps.

Lemma value_program_runs {A} (hash : A -> list (list N) -> list N) (ok_args may_reset : A -> Prop) a b :
  ok_args a -> ok_args b -> (forall l, hash a l <> []) ->
  exists os s', orun hash ok_args span_ok may_reset (fun sl _ => sl <> NoObject) (value_program a b) (fun _ => NoObject) os s' /\
  nth_error os 0 = Some (OBytes (hash a [[0; 1; 2]; [3; 4]])).
Proof.
  intros Ha Hb Hne. eexists. eexists. split.
  - unfold value_program.
    eapply or_silent; [apply os_construct, Ha|].
    eapply or_silent; [eapply os_feed; [reflexivity|apply span_okb_ok; vm_compute; reflexivity]|].
    eapply or_silent; [apply os_construct, Hb|].
    eapply or_silent; [eapply os_feed; [reflexivity|apply span_okb_ok; vm_compute; reflexivity]|].
    eapply or_silent; [eapply os_copy; reflexivity|].
    eapply or_silent; [eapply os_feed; [reflexivity|apply span_okb_ok; vm_compute; reflexivity]|].
    eapply or_silent; [eapply os_assign; [reflexivity|discriminate]|].
    eapply or_silent; [eapply os_feed; [reflexivity|apply span_okb_ok; vm_compute; reflexivity]|].
    eapply or_silent; [eapply os_fin; reflexivity|].
    eapply or_seen; [eapply os_vec; reflexivity|].
    eapply or_silent; [eapply os_move; [discriminate|reflexivity]|].
    eapply or_silent; [eapply os_fin; reflexivity|].
    eapply or_seen; [eapply os_str; [reflexivity|apply Hne]|].
    eapply or_silent; [eapply os_massign; [discriminate|reflexivity|discriminate]|].
    eapply or_silent; [eapply os_feed; [reflexivity|apply span_okb_ok; vm_compute; reflexivity]|].
    eapply or_silent; [eapply os_fin; reflexivity|].
    eapply or_seen; [eapply os_uint; reflexivity|].
    eapply or_seen; [eapply os_std; reflexivity|].
    apply or_nil.
  - reflexivity.
Qed.

Lemma ocase_of C (hash : Args C -> list N -> list N) a chunks out :
  ohash C a chunks = Ok (hash a (concat chunks)) -> ohash C a chunks = Ok out -> hash a (concat chunks) = out.
Proof. intros H E. rewrite E in H. now injection H. Qed.
