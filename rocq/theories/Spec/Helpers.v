(** What the helpers of gsl are to do. *)
From Coq Require Import List NArith ZArith Arith Bool.
From Verif.Spec Require Import View.
Import ListNotations.
Local Open Scope Z_scope.

(** an integer type of [bits] bits *)
Record int_type := mkInt { signed : bool; bits : N }.
Definition lowest (t : int_type) : Z := if signed t then - 2 ^ (Z.of_N (bits t) - 1) else 0.
Definition highest (t : int_type) : Z := if signed t then 2 ^ (Z.of_N (bits t) - 1) - 1 else 2 ^ Z.of_N (bits t) - 1.
Definition has (t : int_type) (z : Z) : bool := (lowest t <=? z) && (z <=? highest t).

(** [n] elements of [m] from place [j] of array [b] on, and all others as they were *)
Definition holds (m' m : arrays) (b j : nat) (l : list N) : Prop :=
  map (@length N) m' = map (@length N) m /\
  (forall i, (i < length l)%nat -> element m' (Some b) (j + i) = nth i l 0%N) /\
  (forall c i, ~ belongs b j (length l) c i -> element m' (Some c) i = element m (Some c) i).

(** ** Guards: actions for the end of a scope *)

(** guards are numbered in the order of their making, actions are named by numbers *)
Inductive guard_cmd :=
| Finally (action : nat)     (* auto g = finally(action) *)
| MoveFrom (g : nat)         (* auto h = std::move(g) *)
| Destroy (g : nat).         (* the end of the scope of g *)

(** the number of guards made *)
Definition is_making (c : guard_cmd) : bool := match c with Destroy _ => false | _ => true end.
Definition makings (p : list guard_cmd) : nat := length (filter is_making p).
(** guards are used while they exist *)
Fixpoint scoped (made : nat) (dead : list nat) (p : list guard_cmd) : Prop :=
  match p with
  | [] => True
  | Finally _ :: p => scoped (S made) dead p
  | MoveFrom g :: p => (g < made)%nat /\ ~ In g dead /\ scoped (S made) dead p
  | Destroy g :: p => (g < made)%nat /\ ~ In g dead /\ scoped made (g :: dead) p
  end.
(** every guard is destroyed *)
Definition all_destroyed (p : list guard_cmd) : Prop := forall g, (g < makings p)%nat -> In (Destroy g) p.
Definition actions (p : list guard_cmd) : list nat :=
  flat_map (fun c => match c with Finally a => [a] | _ => [] end) p.

(** The actions in the order in which they are run: finally() makes a guard the owner of an action, moving from a guard
    makes the new guard the owner instead, destroying the owner runs the action.  [own]: guards with the actions they own. *)
Definition handed (g h : nat) (x : nat * nat) : nat * nat := if (fst x =? g)%nat then (h, snd x) else x.
Fixpoint run_order (made : nat) (own : list (nat * nat)) (p : list guard_cmd) : list nat :=
  match p with
  | [] => []
  | Finally a :: p => run_order (S made) (own ++ [(made, a)]) p
  | MoveFrom g :: p => run_order (S made) (map (handed g made) own) p
  | Destroy g :: p =>
      map snd (filter (fun x => (fst x =? g)%nat) own) ++ run_order made (filter (fun x => negb (fst x =? g)%nat) own) p
  end.
