(** Helpers for the concrete cases about cSHAKE and TupleHash. *)
From Coq Require Import String List NArith ZArith Arith Bool Lia.
From Verif.Spec Require Import Words Client ObjClient Sp800185 CShakeArgs.
From Verif.Tests Require Import Kit.
Import ListNotations.

Definition shortb (s : list N) : bool := forallb (fun b => b <? 256)%N s && (bit_length s <=? 2 ^ 56 - 2 ^ 8)%N.
Lemma shortb_ok s : shortb s = true -> short s.
Proof.
  unfold shortb. rewrite andb_true_iff, forallb_forall. intros [H1 H2]. split.
  - apply Forall_forall. intros x Hx. apply N.ltb_lt, H1, Hx.
  - apply N.leb_le, H2.
Qed.
Ltac shorts := apply shortb_ok; vm_compute; reflexivity.
Ltac one_span := apply span_okb_ok; vm_compute; reflexivity.

(** programs with copies, moves and assignments between several objects *)
Local Open Scope N_scope.
Definition cshake_program (len : Z) : list (ocmd (Z * list N * list N)) :=
  [Construct 0 (len, [], text "Email Signature"); Feed 0 [0; 1]; CopyConstruct 1 0; Feed 0 (counting 200); Feed 1 [2; 3];
   Construct 2 (8%Z, text "name", []); CopyAssign 2 1; MoveConstruct 3 0; MoveAssign 0 2; Fin 0; Fin 3; Vec 0; Uint 3 4;
   Construct 1 (len, [], []); Feed 1 [7]; Rst 1; Feed 1 [0; 1]; Fin 1; Vec 1].
Definition tuple_program (len : Z) : list (ocmd (Z * list N)) :=
  [Construct 0 (len, []); Feed 0 (counting 3); Construct 1 (5%Z, text "x"); Feed 1 [1]; CopyAssign 1 0; Feed 1 [16; 17; 18; 19; 20; 21];
   MoveConstruct 2 1; MoveAssign 1 2; Fin 1; Vec 1; Feed 0 []; Fin 0; Uint 0 4].

(** one step at a time, with a name for the store and what it holds in the first four slots: the proof terms stay small *)
Lemma run_step {Args} hash ok_args ok_item may_reset may_assign (c : ocmd Args) rest s s1 w (P : list obs -> Prop) :
  ostep hash ok_args ok_item may_reset may_assign c s s1 w ->
  (exists os s', orun hash ok_args ok_item may_reset may_assign rest s1 os s' /\ P (match w with Some x => x :: os | None => os end)) ->
  exists os s', orun hash ok_args ok_item may_reset may_assign (c :: rest) s os s' /\ P os.
Proof. intros H (os & s' & H1 & H2). eexists. exists s'. split; [exact (or_cons _ _ _ _ _ _ _ _ _ _ _ _ H H1)|exact H2]. Qed.
Ltac holds s1 k E :=
  let v := fresh "v" in
  let T := type of (s1 k) in evar (v : T); assert (s1 k = v) as E by (unfold v; cbv beta delta [oput Nat.eqb] iota; first [eassumption|reflexivity]); unfold v in E; clear v.
Ltac named := cbn beta iota; match goal with |- exists os s', orun _ _ _ _ _ _ ?s1 _ _ /\ _ =>
  let E0 := fresh "E" in let E1 := fresh "E" in let E2 := fresh "E" in let E3 := fresh "E" in
  holds s1 0%nat E0; holds s1 1%nat E1; holds s1 2%nat E2; holds s1 3%nat E3; revert E0 E1 E2 E3; generalize s1;
  repeat match goal with E : _ _ = _ |- _ => clear E end; intros ? ? ? ? ? end.
Ltac held := first [eassumption|reflexivity|match goal with E : _ = _ |- _ => rewrite E; first [reflexivity|discriminate|exact I] end].

Lemma cshake_program_runs hash len : (0 <= len)%Z -> exists os s',
  orun hash ok_cargs span_ok may_reset may_assign (cshake_program len) (fun _ => NoObject) os s' /\
  nth_error os 0 = Some (OBytes (hash (len, [], text "Email Signature") [[0; 1]; [2; 3]])).
Proof.
  intros H.
  match goal with |- exists os s', _ /\ nth_error os 0 = ?r => change (exists os s', orun hash ok_cargs span_ok may_reset may_assign (cshake_program len) (fun _ => NoObject) os s' /\ (fun os => nth_error os 0 = r) os) end.
  unfold cshake_program.
  eapply run_step; [apply os_construct; split; [exact H|split; shorts]|named].
  eapply run_step; [eapply os_feed; [held|one_span]|named].
  eapply run_step; [eapply os_copy; held|named].
  eapply run_step; [eapply os_feed; [held|one_span]|named].
  eapply run_step; [eapply os_feed; [held|one_span]|named].
  eapply run_step; [apply os_construct; split; [lia|split; shorts]|named].
  eapply run_step; [eapply os_assign; held|named].
  eapply run_step; [eapply os_move; [discriminate|held]|named].
  eapply run_step; [eapply os_massign; [discriminate|held|held]|named].
  eapply run_step; [eapply os_fin; held|named].
  eapply run_step; [eapply os_fin; held|named].
  eapply run_step; [eapply os_vec; held|named].
  eapply run_step; [eapply os_uint; held|named].
  eapply run_step; [apply os_construct; split; [exact H|split; shorts]|named].
  eapply run_step; [eapply os_feed; [held|one_span]|named].
  eapply run_step; [eapply os_reset; held|named].
  eapply run_step; [eapply os_feed; [held|one_span]|named].
  eapply run_step; [eapply os_fin; held|named].
  eapply run_step; [eapply os_vec; held|named].
  eexists. eexists. split; [apply or_nil|reflexivity].
Qed.

Lemma tuple_program_runs hash len : (0 <= len < 2 ^ 28)%Z -> exists os s',
  orun hash ok_targs short no_reset live_assign (tuple_program len) (fun _ => NoObject) os s' /\
  nth_error os 0 = Some (OBytes (hash (len, []) [counting 3; [16; 17; 18; 19; 20; 21]])).
Proof.
  intros H.
  match goal with |- exists os s', _ /\ nth_error os 0 = ?r => change (exists os s', orun hash ok_targs short no_reset live_assign (tuple_program len) (fun _ => NoObject) os s' /\ (fun os => nth_error os 0 = r) os) end.
  unfold tuple_program.
  eapply run_step; [apply os_construct; split; [exact H|shorts]|named].
  eapply run_step; [eapply os_feed; [held|shorts]|named].
  eapply run_step; [apply os_construct; split; [lia|shorts]|named].
  eapply run_step; [eapply os_feed; [held|shorts]|named].
  eapply run_step; [eapply os_assign; [held|held]|named].
  eapply run_step; [eapply os_feed; [held|shorts]|named].
  eapply run_step; [eapply os_move; [discriminate|held]|named].
  eapply run_step; [eapply os_massign; [discriminate|held|held]|named].
  eapply run_step; [eapply os_fin; held|named].
  eapply run_step; [eapply os_vec; held|named].
  eapply run_step; [eapply os_feed; [held|shorts]|named].
  eapply run_step; [eapply os_fin; held|named].
  eapply run_step; [eapply os_uint; held|named].
  eexists. eexists. split; [apply or_nil|reflexivity].
Qed.

(** rephrasing of concrete values *)
Lemma cshake128_eq l d n c chunks m out : Z.to_nat l = d -> concat chunks = m -> Sp800185.cshake128 d n c m = out -> cshake128 (l, n, c) (concat chunks) = out.
Proof. intros <- <- <-. reflexivity. Qed.
Lemma cshake256_eq l d n c chunks m out : Z.to_nat l = d -> concat chunks = m -> Sp800185.cshake256 d n c m = out -> cshake256 (l, n, c) (concat chunks) = out.
Proof. intros <- <- <-. reflexivity. Qed.
Lemma tuplehash128_eq l d c t out : Z.to_nat l = d -> Sp800185.tuplehash128 d c t = out -> tuplehash128 (l, c) t = out.
Proof. intros <- <-. reflexivity. Qed.
Lemma tuplehash256_eq l d c t out : Z.to_nat l = d -> Sp800185.tuplehash256 d c t = out -> tuplehash256 (l, c) t = out.
Proof. intros <- <-. reflexivity. Qed.
