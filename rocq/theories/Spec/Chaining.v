(** What it is to find a collision of a compression function inside two computations, and
    the paddings and inputs of the compression functions of BLAKE and BLAKE2. *)
From Coq Require Import List NArith Arith.
From Verif.Base Require Import Res.
From Verif.Spec Require Import Words.
From Verif.Spec Require Blake Blake2 Md2 Sha2.
Import ListNotations.
Local Open Scope N_scope.

Section Chaining.
  Context {I H : Type} (f : I -> H -> res H) (iv : H).

  (** the computation that starts from [iv] and takes the inputs [ins] one after the other applies [f] to
      the chaining value [h] and the input [b] *)
  Definition visits (ins : list I) (h : H) (b : I) : Prop :=
    exists i, nth_error ins i = Some b /\ foldM f (firstn i ins) iv = Ok h.

  (** two different arguments of [f] with the same value, one met in the computation on [p] and one in that on
      [q].  (That a collision exists somewhere says nothing: [f] compresses.) *)
  Definition collision (p q : list I) : Prop :=
    exists h1 b1 h2 b2 r, visits p h1 b1 /\ visits q h2 b2 /\ (h1, b1) <> (h2, b2) /\ f b1 h1 = Ok r /\ f b2 h2 = Ok r.

  (** the computation comes back to the initial value after some of the inputs, but not none *)
  Definition returns (ins : list I) : Prop := exists i, (0 < i <= length ins)%nat /\ foldM f (firstn i ins) iv = Ok iv.
End Chaining.

(** BLAKE: the compression function takes a block and a counter *)
Definition blake_inputs (nb : nat) (lastbit : bool) (counter : nat -> nat -> N) (m : list N) : list (list N * N) :=
  let bs := pieces (16 * nb) (Blake.pad nb lastbit m) in
  combine bs (map (counter (length m)) (seq 0 (length bs))).

(** BLAKE2: a block, the number of message bytes so far and the flag of the last block *)
Definition blake2_inputs (nb : nat) (m : list N) : list (list N * N * bool) :=
  let bs := Blake2.blocks nb m in
  let last i := (i + 1 =? length bs)%nat in
  combine (combine bs (map (fun i => if last i then N.of_nat (length m) else N.of_nat ((i + 1) * (16 * nb))) (seq 0 (length bs))))
          (map last (seq 0 (length bs))).

Definition blake_f32 (bt : list N * N) (h : list N) : res (list N) :=
  Ok (Blake.compress 32 4 16 12 8 7 Blake.C256 14 h (fst bt) (snd bt)).
Definition blake_f64 (bt : list N * N) (h : list N) : res (list N) :=
  Ok (Blake.compress 64 8 32 25 16 11 Blake.C512 16 h (fst bt) (snd bt)).
Definition blake2_f32 (btf : list N * N * bool) (h : list N) : res (list N) :=
  Ok (Blake2.compress 32 4 16 12 8 7 10 Sha2.IV256 h (fst (fst btf)) (snd (fst btf)) (snd btf)).
Definition blake2_f64 (btf : list N * N * bool) (h : list N) : res (list N) :=
  Ok (Blake2.compress 64 8 32 24 16 63 12 Sha2.IV512 h (fst (fst btf)) (snd (fst btf)) (snd btf)).

(** MD2: the chaining value are the first 16 bytes of the buffer; after the padded message comes its checksum *)
Definition md2_f (b h : list N) : res (list N) := Ok (firstn 16 (Md2.absorb_block h b)).
Definition md2_inputs (m : list N) : list (list N) := pieces 16 (Md2.pad m ++ Md2.checksum (Md2.pad m)).
