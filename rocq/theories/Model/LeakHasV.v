(** HAS-V with what an observer of array indices and branches sees of each member call, as Model/LeakLibrary.v for the
    classes of the library.  toString() is not included: it calls snprintf      unfinished/has_v_320.cpp:120-133 *)
From Coq Require Import List NArith.
From Verif.Base Require Import Leak.
From Verif.Spec Require Import Client.
From Verif.Model Require Import Api LeakLibrary.
From Verif.Model Require HasV.
From Verif.Model.Leak Require LkHasV.
Import ListNotations.

(** addData, finalize, toArray      unfinished/has_v_320.cpp:90-118, 141-189 *)
Definition has_v (dbg : bool) : Leaky (Obj (HasV.cls dbg)) := mkLeaky (LkHasV.addData dbg) (LkHasV.finalize dbg) LkHasV.toArray.

(** the program with all objects new *)
Definition seen (dbg : bool) (p : list cmd) : res (list obs * store (HasV.cls dbg)) :=
  run (HasV.cls dbg) (has_v dbg) p (fun _ => c_new (HasV.cls dbg)).
