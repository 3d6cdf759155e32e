(** The overloads of addData have the effect of addData on the bytes in memory. *)
From Coq Require Import List NArith ZArith Arith Bool Lia.
From Verif.Base Require Import Res CWord.
From Verif.Spec Require Import Words Memory.
From Verif.Model Require Import Buffer Stream Api ObjApi Library Overloads.
From Verif.Proof Require Import Words.
From Verif.Model Require Blake2 CShake TupleHash Keccak.
Import ListNotations.
Local Open Scope N_scope.

(** ** reading *)
Lemma nth_error_skipn {A} k (l : list A) i : nth_error (skipn k l) i = nth_error l (k + i).
Proof. revert l. induction k as [|k IH]; intros [|x l]; cbn; auto. now destruct i. Qed.
Lemma nth_error_firstn {A} n (l : list A) i v : nth_error (firstn n l) i = Some v -> nth_error l i = Some v.
Proof.
  intros E. assert (i < length (firstn n l))%nat as H by (apply nth_error_Some; congruence).
  rewrite <- (firstn_skipn n l). now rewrite nth_error_app1.
Qed.
Lemma object_part mem p d k n : object_at mem p d -> object_at mem (p + N.of_nat k) (firstn n (skipn k d)).
Proof.
  intros H i b E. apply nth_error_firstn in E. rewrite nth_error_skipn in E. apply H in E. rewrite <- E. f_equal. lia.
Qed.
Lemma object_first mem p d n : object_at mem p d -> object_at mem p (firstn n d).
Proof. intros H i b E. apply nth_error_firstn in E. now apply H. Qed.
Lemma object_skip mem p d k : object_at mem p d -> object_at mem (p + N.of_nat k) (skipn k d).
Proof. intros H. pose proof (object_part mem p d k (length d) H) as G. rewrite firstn_all2 in G; [exact G|]. rewrite skipn_length. lia. Qed.
Lemma object_cons mem p x d : object_at mem p (x :: d) -> mem p = Some x /\ object_at mem (p + 1) d.
Proof.
  intros H. split.
  - rewrite <- (N.add_0_r p). exact (H 0%nat x eq_refl).
  - intros i b E. rewrite <- (H (Datatypes.S i) b E). f_equal. lia.
Qed.

Lemma loads_from mem : forall d p k, object_at mem (p + N.of_nat k) d ->
  mapM (fun i => load mem (p + N.of_nat i)) (seq k (length d)) = Ok d.
Proof.
  induction d as [|x d IH]; intros p k H; [reflexivity|]. apply object_cons in H as [H0 H]. cbn [length seq mapM].
  unfold load at 1. rewrite H0, bind_ok. rewrite (IH p (Datatypes.S k)); [reflexivity|].
  replace (p + N.of_nat (Datatypes.S k)) with (p + N.of_nat k + 1) by lia. exact H.
Qed.
Lemma loads_ok mem p d n : n = length d -> object_at mem p d -> loads mem p n = Ok d.
Proof. intros -> H. apply (loads_from mem d p 0). now rewrite N.add_0_r. Qed.

Lemma push_from dbg mem : forall d p k b, object_at mem (p + N.of_nat k) d ->
  for_ k (length d) (fun i b => let! v := load mem (p + N.of_nat i) in buf_fill dbg v 1 b) b = buf_push_back dbg d b.
Proof.
  induction d as [|x d IH]; intros p k b H; [reflexivity|]. apply object_cons in H as [H0 H]. cbn [length for_].
  unfold load at 1. rewrite H0, bind_ok. unfold buf_push_back. cbn [foldM]. apply bind_ext. intros b'. apply IH.
  replace (p + N.of_nat (Datatypes.S k)) with (p + N.of_nat k + 1) by lia. exact H.
Qed.
Lemma push_ok dbg mem p d n b : n = length d -> object_at mem p d -> push_range dbg mem p n b = buf_push_back dbg d b.
Proof. intros -> H. apply push_from. now rewrite N.add_0_r. Qed.

(** ** addData of a span *)
Section Stream.
  Variable St : Type.
  Variables (B cap : nat) (dbg : bool).
  Variable impl : list N -> St -> res St.
  Variable mem : memory.
  Hypothesis HB : (0 < B)%nat.

  Lemma mod_nat n : N.of_nat n mod N.of_nat B = N.of_nat (n mod B).
  Proof. now rewrite Nat2N.inj_mod. Qed.
  Lemma usub_nat n k : (k <= n)%nat -> N.of_nat n < 2 ^ 64 -> usub 64 (N.of_nat n) (N.of_nat k) = N.of_nat (n - k).
  Proof using.
    clear. intros H L. unfold usub. rewrite N.shiftl_1_l, !trunc_mod. change (2 ^ 64) with 18446744073709551616 in *.
    rewrite (N.mod_small (N.of_nat k)) by lia.
    replace (N.of_nat n + (18446744073709551616 - N.of_nat k)) with (N.of_nat (n - k) + 1 * 18446744073709551616) by lia.
    rewrite N.mod_add by discriminate. apply N.mod_small. lia.
  Qed.
  Lemma ltb_nat n k : (N.of_nat n <? N.of_nat k) = (n <? k)%nat.
  Proof using. clear. destruct (Nat.ltb_spec n k); [apply N.ltb_lt|apply N.ltb_ge]; lia. Qed.
  Lemma leb_nat n k : (N.of_nat n <=? N.of_nat k) = (n <=? k)%nat.
  Proof using. clear. destruct (Nat.leb_spec n k); [apply N.leb_le|apply N.leb_gt]; lia. Qed.

  Lemma tail_ok p d buf s : object_at mem p d -> N.of_nat (length d) < 2 ^ 64 ->
    stream_tail St B cap dbg impl mem (mkSpan p (N.of_nat (length d))) buf s = addData_tail St B cap dbg impl d buf s.
  Proof.
    intros H L. unfold stream_tail, addData_tail. cbn [sp_size sp_data]. rewrite ltb_nat.
    destruct (length d <? B)%nat.
    { now rewrite Nat2N.id, (push_ok dbg mem p d). }
    rewrite mod_nat. assert (length d mod B <= length d)%nat as Hm by (apply Nat.mod_le; lia).
    rewrite usub_nat by assumption. set (len := (length d - length d mod B)%nat).
    unfold sp_first, span_first. cbn [sp_size sp_data]. rewrite leb_nat.
    destruct (Nat.leb_spec len (length d)) as [Hl|Hl]; [|reflexivity]. rewrite !bind_ok. unfold whole. cbn [sp_size sp_data].
    rewrite Nat2N.id, (loads_ok mem p (firstn len d)) by (first [now rewrite firstn_length_le | now apply object_first]).
    rewrite bind_ok. apply bind_ext. intros s'. rewrite ltb_nat. destruct (len <? length d)%nat; [|reflexivity].
    rewrite (push_ok dbg mem _ (skipn len d)); [reflexivity|rewrite skipn_length; lia|now apply object_skip].
  Qed.

  Theorem stream_ok p d o : object_at mem p d -> N.of_nat (length d) < 2 ^ 64 ->
    stream_add St B cap dbg impl mem (mkSpan p (N.of_nat (length d))) o = addData St B cap dbg impl d o.
  Proof.
    destruct o as [buf s]. intros H L. unfold stream_add, addData. destruct (negb (buf_empty buf)); [|now apply tail_ok].
    cbn [sp_size sp_data].
    set (len := if (buf_size buf <=? B)%nat then Nat.min (B - buf_size buf) (length d) else length d).
    assert ((if (buf_size buf <=? B)%nat then N.min (N.of_nat (B - buf_size buf)) (N.of_nat (length d)) else N.of_nat (length d)) = N.of_nat len) as ->
      by (unfold len; destruct (buf_size buf <=? B)%nat; lia).
    assert (len <= length d)%nat as Hl by (unfold len; destruct (buf_size buf <=? B)%nat; lia). clearbody len.
    rewrite Nat2N.id, (push_ok dbg mem p (firstn len d)) by (first [now rewrite firstn_length_le | now apply object_first]).
    apply bind_ext. intros b. destruct (buf_size b <? B)%nat; [reflexivity|]. apply bind_ext. intros s'.
    unfold sp_subspan, span_subspan. cbn [sp_size sp_data]. rewrite leb_nat.
    destruct (Nat.leb_spec len (length d)) as [_|]; [|lia]. rewrite !bind_ok.
    replace (N.of_nat (length d) - N.of_nat len) with (N.of_nat (length (skipn len d))) by (rewrite skipn_length; lia).
    apply tail_ok; [now apply object_skip|rewrite skipn_length; lia].
  Qed.

  Lemma blake2_tail_ok p d s : object_at mem p d -> N.of_nat (length d) < 2 ^ 64 -> d <> [] ->
    blake2_tail St B dbg impl mem (mkSpan p (N.of_nat (length d))) s = Model.Blake2.addData_tail St B dbg impl d s.
  Proof.
    intros H L Hd. unfold blake2_tail, Model.Blake2.addData_tail. cbn [sp_size sp_data]. rewrite mod_nat.
    set (r := if negb (length d mod B =? 0)%nat then (length d mod B)%nat else B).
    assert ((if negb (N.of_nat (length d mod B) =? 0) then N.of_nat (length d mod B) else N.of_nat B) = N.of_nat r) as ->.
    { unfold r. destruct (Nat.eqb_spec (length d mod B) 0) as [E|E]; [rewrite E; reflexivity|].
      destruct (N.eqb_spec (N.of_nat (length d mod B)) 0); [lia|reflexivity]. }
    assert (r <= length d)%nat as Hr.
    { unfold r. destruct (Nat.eqb_spec (length d mod B) 0) as [E|E]; cbn [negb]; [|apply Nat.mod_le; lia].
      apply Nat.mod_divides in E as [c E]; [|lia]. destruct c; [destruct d; [congruence|cbn [length] in E; lia]|]. rewrite E. nia. }
    clearbody r. rewrite usub_nat by assumption. destruct (Nat.leb_spec r (length d)); [|lia].
    unfold sp_first, span_first. cbn [sp_size sp_data]. rewrite leb_nat.
    destruct (Nat.leb_spec (length d - r) (length d)) as [_|]; [|lia]. rewrite !bind_ok. unfold whole. cbn [sp_size sp_data].
    rewrite Nat2N.id, (loads_ok mem p (firstn (length d - r) d)) by (first [rewrite firstn_length_le; lia | now apply object_first]).
    rewrite bind_ok. apply bind_ext. intros s'.
    rewrite (push_ok dbg mem _ (skipn (length d - r) d)); [reflexivity|rewrite skipn_length; lia|].
    replace (N.of_nat (length d) - N.of_nat r) with (N.of_nat (length d - r)) by lia. now apply object_skip.
  Qed.

  Theorem blake2_ok : forall fuel p d o, object_at mem p d -> N.of_nat (length d) < 2 ^ 64 ->
    blake2_rec St B dbg impl mem fuel (mkSpan p (N.of_nat (length d))) o = Model.Blake2.addData_rec St B dbg impl fuel d o.
  Proof.
    induction fuel as [|fuel IH]; intros p d o H L; [reflexivity|]. cbn [blake2_rec Model.Blake2.addData_rec sp_size sp_data].
    destruct o as [buf s]. destruct d as [|x d]; [reflexivity|].
    destruct (N.eqb_spec (N.of_nat (length (x :: d))) 0) as [E|_]; [cbn [length] in E; lia|].
    assert (x :: d <> []) as Hne by discriminate. generalize dependent (x :: d). clear x d. intros d H L Hd.
    destruct (buf_size buf =? B)%nat; [apply bind_ext; intros; now apply blake2_tail_ok|].
    destruct (negb (buf_empty buf)); [|now apply blake2_tail_ok].
    rewrite <- Nat2N.inj_min. set (len := Nat.min (B - buf_size buf) (length d)). assert (len <= length d)%nat as Hl by (unfold len; lia).
    rewrite Nat2N.id, (push_ok dbg mem p (firstn len d)) by (first [now rewrite firstn_length_le | now apply object_first]).
    apply bind_ext. intros b. unfold sp_subspan, span_subspan. cbn [sp_size sp_data]. rewrite leb_nat.
    destruct (Nat.leb_spec len (length d)) as [_|]; [|lia]. rewrite !bind_ok.
    replace (N.of_nat (length d) - N.of_nat len) with (N.of_nat (length (skipn len d))) by (rewrite skipn_length; lia).
    apply IH; [now apply object_skip|rewrite skipn_length; lia].
  Qed.

  Lemma whole_ok p d s : object_at mem p d -> whole_add St impl mem (mkSpan p (N.of_nat (length d))) s = impl d s.
  Proof using. intros H. unfold whole_add, whole. cbn [sp_size sp_data]. now rewrite Nat2N.id, (loads_ok mem p d), bind_ok. Qed.
End Stream.

Theorem add_span_ok (a : alg) dbg mem p d o : object_at mem p d -> N.of_nat (length d) < 2 ^ 64 ->
  add_span a dbg mem (mkSpan p (N.of_nat (length d))) o = c_add (class a dbg) d o.
Proof.
  intros H L. destruct a; cbn [add_span]; unfold stream_span, blake2_span, whole_span;
    first [ etransitivity; [apply stream_ok; [apply Nat.ltb_lt; reflexivity|exact H|exact L]|reflexivity]
          | etransitivity; [apply blake2_ok; [apply Nat.ltb_lt; reflexivity|exact H|exact L]|reflexivity]
          | etransitivity; [apply whole_ok; exact H|reflexivity] ].
Qed.

(** ** typed arrays *)
Lemma array_object mem size : forall elements p, array_at mem size p elements ->
  object_at mem p (concat elements) /\ length (concat elements) = (length elements * size)%nat.
Proof.
  induction elements as [|e es IH]; intros p H; [split; [intros [|i] b E; discriminate|reflexivity]|].
  destruct (H 0%nat e eq_refl) as [Le He]. replace (p + N.of_nat (0 * size)) with p in He by lia.
  destruct (IH (p + N.of_nat size)) as [Ho Hl].
  { intros i e' E. destruct (H (Datatypes.S i) e' E) as [L' H']. split; [exact L'|].
    replace (p + N.of_nat size + N.of_nat (i * size)) with (p + N.of_nat (Datatypes.S i * size)) by lia. exact H'. }
  cbn [concat length]. rewrite app_length, Hl, Le. split; [|lia]. intros i b E.
  destruct (Nat.ltb_spec i (length e)) as [Hi|Hi].
  - rewrite nth_error_app1 in E by exact Hi. now apply He.
  - rewrite nth_error_app2 in E by exact Hi. rewrite <- (Ho _ _ E). f_equal. lia.
Qed.
Lemma size_ok n size : N.of_nat (n * size) < 2 ^ 64 -> umul 64 (N.of_nat n) (N.of_nat size) = N.of_nat (n * size).
Proof. intros H. unfold umul. rewrite trunc_id by (unfold bnd; lia). lia. Qed.

(** any class whose addData of a span reads the bytes of the span *)
Section Overloads.
  Variable O : Type.
  Variable add : memory -> span -> O -> res O.
  Variable add_list : list N -> O -> res O.
  Hypothesis Hadd : forall mem p d o, object_at mem p d -> N.of_nat (length d) < 2 ^ 64 ->
    add mem (mkSpan p (N.of_nat (length d))) o = add_list d o.

  Lemma pointer_ok mem p d o : object_at mem p d -> N.of_nat (length d) < 2 ^ 64 ->
    add_pointer O add mem p (N.of_nat (length d)) o = add_list d o.
  Proof. apply Hadd. Qed.
  Lemma bytes_ok_add mem p d o : object_at mem p d -> N.of_nat (length d) < 2 ^ 64 ->
    add_bytes O add mem p (N.of_nat (length d)) o = add_list d o.
  Proof. apply Hadd. Qed.
  Lemma array_ok mem size p es o : array_at mem size p es -> N.of_nat (length es * size) < 2 ^ 64 ->
    add_array O add (N.of_nat size) mem p (N.of_nat (length es)) o = add_list (concat es) o.
  Proof.
    intros H L. destruct (array_object mem size es p H) as [Ho Hl]. unfold add_array.
    rewrite size_ok by (rewrite Nat.mul_comm; exact L). rewrite Nat.mul_comm, <- Hl. rewrite <- Hl in L. now apply Hadd.
  Qed.
  Lemma typed_ok mem size p es o : array_at mem size p es -> N.of_nat (length es * size) < 2 ^ 64 ->
    add_typed_span O add (N.of_nat size) mem p (N.of_nat (length es)) o = add_list (concat es) o.
  Proof.
    intros H L. destruct (array_object mem size es p H) as [Ho Hl]. unfold add_typed_span.
    rewrite size_ok by exact L. rewrite <- Hl in *. now apply Hadd.
  Qed.

  Theorem call_ok mem c d o : designates mem c d -> add_call O add mem c o = add_list d o.
  Proof.
    intros [p d' H L|p d' H L|p d' H L|size p es H L|size p es H L]; cbn [add_call].
    - now apply Hadd.
    - now apply pointer_ok.
    - now apply bytes_ok_add.
    - now apply array_ok.
    - now apply typed_ok.
  Qed.
  Theorem calls_ok mem cs ds o : Forall2 (designates mem) cs ds -> foldM (add_call O add mem) cs o = foldM add_list ds o.
  Proof.
    intros H. revert o. induction H as [|c d cs ds H _ IH]; intros o; [reflexivity|]. cbn [foldM].
    rewrite (call_ok mem c d o H). apply bind_ext. exact IH.
  Qed.
End Overloads.

(** ** cSHAKE and TupleHash *)
Theorem cshake_span_ok R sufS sufK dbg mem p d o : (0 < R)%nat -> object_at mem p d -> N.of_nat (length d) < 2 ^ 64 ->
  cshake_span R sufS sufK dbg mem (mkSpan p (N.of_nat (length d))) o = Model.CShake.addData R sufS sufK dbg d o.
Proof.
  intros HR H L. unfold cshake_span, Model.CShake.addData, Model.CShake.on_selected, stream_span, Model.Keccak.addData.
  destruct (negb _); apply bind_ext; intros x; now rewrite (stream_ok _ R R dbg _ mem HR p d).
Qed.
Theorem tuple_span_ok log2 R sufS sufK dbg mem p d o : (0 < R)%nat -> object_at mem p d -> N.of_nat (length d) < 2 ^ 64 ->
  tuple_span log2 R sufS sufK dbg mem (mkSpan p (N.of_nat (length d))) o = Model.TupleHash.nextData log2 R sufS sufK dbg d o.
Proof.
  intros HR H L. unfold tuple_span, Model.TupleHash.nextData. cbn [sp_size]. apply bind_ext. intros e. apply bind_ext. intros o'.
  unfold Model.TupleHash.addDataImpl. now rewrite (cshake_span_ok R sufS sufK dbg mem p d _ HR H L).
Qed.

Theorem class_calls (a : alg) dbg mem cs ds o : Forall2 (designates mem) cs ds ->
  foldM (add_call _ (add_span a dbg) mem) cs o = foldM (c_add (class a dbg)) ds o.
Proof. apply calls_ok. intros. now apply add_span_ok. Qed.
Theorem cshake_calls R sufS sufK dbg mem cs ds o : (0 < R)%nat -> Forall2 (designates mem) cs ds ->
  foldM (add_call _ (cshake_span R sufS sufK dbg) mem) cs o = foldM (Model.CShake.addData R sufS sufK dbg) ds o.
Proof. intros HR. apply calls_ok. intros. now apply cshake_span_ok. Qed.
Theorem tuple_calls log2 R sufS sufK dbg mem cs ds o : (0 < R)%nat -> Forall2 (designates mem) cs ds ->
  foldM (add_call _ (tuple_span log2 R sufS sufK dbg) mem) cs o = foldM (Model.TupleHash.nextData log2 R sufS sufK dbg) ds o.
Proof. intros HR. apply calls_ok. intros. now apply tuple_span_ok. Qed.
