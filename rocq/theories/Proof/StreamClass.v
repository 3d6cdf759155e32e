(** A class with the shared addData: what remains to be shown is addDataImpl, finalize and
    toArray. *)
From Coq Require Import List NArith Arith Bool Lia.
From Verif.Base Require Import Res CWord.
From Verif.Spec Require Import Words Client.
From Verif.Model Require Import Buffer Stream Api.
From Verif.Proof Require Import Words Streaming Api.
Import ListNotations.

Section StreamClass.
  Context {St : Type}.
  Variables (B cap : nat) (dbg : bool) (impl : list N -> St -> res St).
  Variables (inv : St -> Prop) (run : list N -> St -> St) (s0 : St).
  Variables (finalize : Buffer * St -> res (Buffer * St)) (arr : St -> res (list N)).
  Variables (hash : list N -> list N) (dom : list N -> Prop) (done : list N -> Buffer * St).
  Hypothesis HB : 0 < B.
  Hypothesis Hcap : B <= cap.
  Hypothesis Hinv0 : inv s0.
  Hypothesis HB64 : (N.of_nat B < 2 ^ 64)%N.
  Hypothesis Himpl : forall d s, inv s -> span_ok d -> aligned B d -> impl d s = Ok (run d s).
  Hypothesis Hinv_run : forall d s, inv s -> bytes_ok d -> aligned B d -> inv (run d s).
  Hypothesis Hrun_app : forall x y s, inv s -> bytes_ok x -> aligned B x -> bytes_ok y -> aligned B y ->
    run (x ++ y) s = run y (run x s).
  Hypothesis Hrun_nil : run [] s0 = s0.
  Hypothesis Hfin : forall m, bytes_ok m -> dom m -> finalize (absorb B cap run s0 m) = Ok (done m).
  Hypothesis Harr : forall m, bytes_ok m -> dom m -> arr (snd (done m)) = Ok (hash m) /\ bytes_ok (hash m).
  Hypothesis Hdone : forall m, bytes_ok m -> dom m -> length (b_arr (fst (done m))) = cap.

  Theorem stream_implements :
    Implements (stream_class B cap dbg impl s0 finalize arr) hash dom (absorb B cap run s0) done.
  Proof.
    constructor; cbn [stream_class c_new c_add c_finalize c_reset c_array Obj].
    - symmetry. apply absorb_nil; assumption.
    - intros m d Hm Hd. apply (addData_ok B cap dbg impl inv run s0); assumption.
    - exact Hfin.
    - intros m Hm Hd. apply Harr; assumption.
    - intros m Hm. unfold buf_clear. rewrite absorb_buf_length by assumption. reflexivity.
    - intros m Hm Hd. unfold buf_clear. rewrite Hdone by assumption. reflexivity.
    - intros m Hm Hd. apply Harr; assumption.
  Qed.
End StreamClass.
