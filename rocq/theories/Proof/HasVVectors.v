(** The vectors in test_has_v_320.cpp. *)
From Coq Require Import String List NArith.
From Verif.Base Require Import Res.
From Verif.Model Require Import Api.
From Verif.Model Require HasV.
From Verif.Tests Require Import Kit.
Import ListNotations.

(** two results with different first bytes differ *)
Lemma differ (r : res (list N)) l : (exists x, r = Ok x /\ hd 0%N x <> hd 0%N l) -> r <> Ok l.
Proof. intros (x & -> & H) E. apply H. now injection E as ->. Qed.

Theorem vectors_differ dbg :
  hash_chunks (Model.HasV.cls dbg) [text ""] <>
    Ok (unhex "475974bed7ea137d982d1df5b2583b1ac4d5941d8d557bb303586742d8891788943a9668a9da68c3") /\
  hash_chunks (Model.HasV.cls dbg) [text "abc"] <>
    Ok (unhex "a70ab818294865cf9c9697d69715235370381b833f8f1a42e01505888b002e4305fe6405519f595c").
Proof.
  split; apply differ.
  - exists (unhex "6a71a58ba02f3f5bc75590fd24f0b6fddc6775d454822f4d8afe4b0a8353d52c5572b7c6747b8b1d").
    split; [destruct dbg; vm_compute; reflexivity|vm_compute; discriminate].
  - exists (unhex "ce3f84c126637b1a081af001b7b6a07d7299501c58c4421c79d8df3da1fdbaea2565c8efa3921d76").
    split; [destruct dbg; vm_compute; reflexivity|vm_compute; discriminate].
Qed.
