(** What objects keep of the data: buffers in every program, reset(), and the memory of finalized objects. *)
From Coq Require Import List NArith ZArith Arith Bool Lia.
From Verif.Base Require Import Res CWord.
From Verif.Spec Require Import Words Client Legal Ledger Residue.
From Verif.Model Require Import Buffer Stream Counter Api Library Chaining Residue.
From Verif.Proof Require Import Words Streaming Delayed Blocks Api Post Lockstep.
From Verif.Proof Require Encode Shape Crc32 Equality Library SpongeEq Collide Extension Md2.
From Verif.Model Require Call Blake1 Blake2 SipHash Keccak Md2.
From Verif.Spec Require Md2 Merkle.
Import ListNotations.

(** ** the array of a buffer has its capacity *)
Definition sized (n : nat) (b : Buffer) : Prop := length (b_arr b) = n.
Lemma sized_new n : sized n (buf_new n).
Proof. apply repeat_length. Qed.
Lemma sized_clear n b : sized n b -> buf_clear b = buf_new n.
Proof. intros H. unfold buf_clear. now rewrite H. Qed.
Lemma sized_aset n b i v : sized n b -> post (aset (b_arr b) i v) (fun r => length r = n).
Proof. intros H r E. unfold aset in E. destruct (_ <? _); [|discriminate]. injection E as <-. now rewrite upd_length. Qed.
Lemma sized_put n v b : sized n b -> post (buf_put v b) (sized n).
Proof. intros H. unfold buf_put. apply (post_bind _ _ _ _ (sized_aset n b _ v H)). intros l Hl. apply post_ok, Hl. Qed.
Lemma sized_fill n dbg v k b : sized n b -> post (buf_fill dbg v k b) (sized n).
Proof. intros H. unfold buf_fill. apply post_any. intros _. apply post_for; [|exact H]. intros; now apply sized_put. Qed.
Lemma sized_push n dbg l b : sized n b -> post (buf_push_back dbg l b) (sized n).
Proof. intros H. unfold buf_push_back. apply post_foldM; [|exact H]. intros; now apply sized_fill. Qed.
Lemma sized_range n dbg l : post (buf_of_range dbg n l) (sized n).
Proof. apply (sized_push n dbg l _ (sized_new n)). Qed.
Lemma sized_from_end n k i v b : sized n b -> post (buf_set_from_end k i v b) (sized n).
Proof.
  intros H. unfold buf_set_from_end. destruct (_ <? _); [apply post_ub|]. apply (post_bind _ _ _ _ (sized_aset n b _ v H)). intros l Hl. apply post_ok, Hl.
Qed.

Section Add.
  Context {St : Type}.
  Variables (B cap : nat) (dbg : bool) (impl : list N -> St -> res St).
  Lemma sized_tail d b s : sized cap b -> post (addData_tail St B cap dbg impl d b s) (fun o => sized cap (fst o)).
  Proof.
    intros H. unfold addData_tail. destruct (_ <? _).
    - apply (post_bind _ _ _ _ (sized_range cap dbg d)). intros x Hx. apply post_ok, Hx.
    - apply post_any. intros e. apply post_any. intros t. destruct (_ <? _); [|apply post_ok, H].
      apply (post_bind _ _ _ _ (sized_range cap dbg _)). intros x Hx. apply post_ok, Hx.
  Qed.
  Lemma sized_add d o : sized cap (fst o) -> post (addData St B cap dbg impl d o) (fun o => sized cap (fst o)).
  Proof.
    destruct o as [b s]. cbn [fst]. intros H. unfold addData. destruct (negb _); [|now apply sized_tail].
    apply (post_bind _ _ _ _ (sized_push cap dbg _ b H)). intros x Hx. destruct (_ <? _); [apply post_ok, Hx|].
    apply post_any. intros t. apply post_any. intros e. apply sized_tail. rewrite (sized_clear cap x Hx). apply sized_new.
  Qed.
  Lemma sized_tail2 d s : post (Blake2.addData_tail St B dbg impl d s) (fun o => sized B (fst o)).
  Proof.
    unfold Blake2.addData_tail. destruct (_ <=? length d); [|apply post_ub].
    apply post_any. intros e. apply post_any. intros t. apply (post_bind _ _ _ _ (sized_range B dbg _)). intros x Hx. apply post_ok, Hx.
  Qed.
  Lemma sized_add2 fuel : forall d o, sized B (fst o) -> post (Blake2.addData_rec St B dbg impl fuel d o) (fun o => sized B (fst o)).
  Proof.
    induction fuel as [|fuel IH]; intros d [b s] H; cbn [Blake2.addData_rec fst] in *; [apply post_ub|]. destruct d; [apply post_ok, H|].
    destruct (_ =? _); [apply post_any; intros t; apply sized_tail2|]. destruct (negb _); [|apply sized_tail2].
    apply (post_bind _ _ _ _ (sized_push B dbg _ b H)). intros x Hx. apply post_any. intros e. apply IH, Hx.
  Qed.
End Add.

(** ** finalize leaves a buffer of zeros *)
Definition wiped {St} (n : nat) (o : Buffer * St) : Prop := fst o = buf_new n.
Ltac wipe1 H := first [apply (post_bind _ _ _ _ (sized_fill _ _ _ _ _ H))|apply (post_bind _ _ _ _ (sized_from_end _ _ _ _ _ H))].
Section Fin.
  Variables (n : nat) (dbg : bool).
  Lemma len_sized wl : wl = write_len_be \/ wl = write_len_le -> forall x b, sized n b -> post (wl x b) (sized n).
  Proof.
    intros [->| ->] x b H; [unfold write_len_be|unfold write_len_le]; (apply post_for; [|exact H]); intros i c Hc; wipe1 Hc; intros c' Hc'; apply sized_from_end, Hc'.
  Qed.
  Lemma md_wiped {H} B pb wl (impl : list N -> MD H -> res (MD H)) o : wl = write_len_be \/ wl = write_len_le -> sized n (fst o) ->
    post (md_finalize B dbg pb wl impl o) (wiped n).
  Proof.
    destruct o as [b s]. cbn [fst]. intros W Hb. unfold md_finalize. wipe1 Hb. intros b1 H1. wipe1 H1. intros b2 H2.
    apply (post_bind _ _ _ _ (len_sized wl W _ b2 H2)). intros b3 H3. apply post_any. intros t. apply post_ok, (sized_clear n b3 H3).
  Qed.
  Lemma md8_wiped {H} B r (impl : list N -> MD128 H -> res (MD128 H)) o : sized n (fst o) -> post (md128_finalize B r dbg impl o) (wiped n).
  Proof.
    destruct o as [b s]. cbn [fst]. intros Hb. unfold md128_finalize. wipe1 Hb. intros b1 H1. wipe1 H1. intros b2 H2.
    apply (post_bind _ _ (sized n)). { unfold write_len_be128. apply post_for; [|exact H2]. intros i c Hc; wipe1 Hc; intros c' Hc'; apply sized_from_end, Hc'. }
    intros b3 H3. apply post_any. intros t. apply post_ok, (sized_clear n b3 H3).
  Qed.
  Lemma blake1_wiped w nb r1 r2 r3 r4 tbl F calls K narrow lastbit o : sized n (fst o) ->
    post (Blake1.finalize w nb r1 r2 r3 r4 tbl F calls K narrow lastbit dbg o) (wiped n).
  Proof.
    destruct o as [b s]. cbn [fst]. intros Hb. unfold Blake1.finalize. wipe1 Hb. intros b1 H1. wipe1 H1. intros b2 H2.
    apply (post_bind _ _ (sized n)). { unfold Blake1.set_lastbit. destruct lastbit; [|apply post_ok, H2]. apply post_any. intros x. apply sized_from_end, H2. }
    intros b3 H3. apply (post_bind _ _ (sized n)). { unfold Blake1.write_len. apply post_for; [|exact H3]. intros i c Hc; wipe1 Hc; intros c' Hc'; apply sized_from_end, Hc'. }
    intros b4 H4. apply post_any. intros t. apply post_ok, (sized_clear n b4 H4).
  Qed.
  Lemma blake2_wiped w nb r1 r2 r3 r4 tbl F calls K o : sized n (fst o) -> post (Blake2.finalize w nb r1 r2 r3 r4 tbl F calls K dbg o) (wiped n).
  Proof.
    destruct o as [b s]. cbn [fst]. intros Hb. unfold Blake2.finalize. wipe1 Hb. intros b1 H1. apply post_any. intros t. apply post_ok, (sized_clear n b1 H1).
  Qed.
  Lemma md2_wiped o : sized n (fst o) -> post (Md2.finalize dbg o) (wiped n).
  Proof.
    destruct o as [b s]. cbn [fst]. intros Hb. unfold Md2.finalize. wipe1 Hb. intros b1 H1. apply post_any. intros t. apply post_any. intros u. apply post_ok, (sized_clear n b1 H1).
  Qed.
  Lemma sip_wiped C D o : sized n (fst o) -> post (SipHash.finalize C D dbg o) (wiped n).
  Proof.
    destruct o as [b s]. cbn [fst]. intros Hb. unfold SipHash.finalize. destruct (7 <? _); [apply post_ub|]. wipe1 Hb. intros b1 H1. wipe1 H1. intros b2 H2.
    apply post_any. intros t. destruct (SipHash.s_v t). apply post_any. intros u. apply post_ok, (sized_clear n b2 H2).
  Qed.
  Lemma keccak_wiped R P o : sized n (fst o) -> post (Keccak.finalize R P dbg o) (wiped n).
  Proof.
    destruct o as [b s]. cbn [fst]. intros Hb. unfold Keccak.finalize. wipe1 Hb. intros b1 H1. wipe1 H1. intros b2 H2. apply post_any. intros v. wipe1 H2. intros b3 H3.
    apply post_any. intros t. apply post_any. intros u. apply post_ok, (sized_clear n b3 H3).
  Qed.
End Fin.

(** ** the contents of the buffer in every program *)
Record Tracks (k : kind) (C : HashClass) (R : Book k -> Obj C -> Prop) : Prop := {
  tr_new : R (k_new k) (c_new C);
  tr_add : forall s x d, R s x -> span_ok d -> post (c_add C d x) (R (Ledger.k_add k d s));
  tr_fin : forall s x, R s x -> post (c_finalize C x) (R (k_finalize k s));
  tr_reset : forall s x, R s x -> R (k_reset k s) (c_reset C x)
}.
Lemma tracks_exec k C R : Tracks k C R -> forall p s st os st', Forall (callable true) p -> (forall i, R (s i) (st i)) ->
  exec C p st = Ok (os, st') -> forall i, R (left k p s i) (st' i).
Proof.
  intros T. induction p as [|[i o|i j] p IH]; intros s st os st' Hp Hs E; cbn [exec left] in *.
  - injection E as _ <-. exact Hs.
  - inversion_clear Hp as [|? ? Ho Hp'].
    destruct (exec_op C o (st i)) as [[y w]| |] eqn:Eo; [|discriminate E|discriminate E]. rewrite bind_ok in E. cbn [fst snd] in E.
    destruct (exec C p (put C st i y)) as [[os1 st1]| |] eqn:E1; [|discriminate E|discriminate E]. rewrite bind_ok in E. cbn [fst snd] in E.
    assert (st1 = st') as <- by (destruct w; injection E; auto).
    apply (IH (enter k s i (called k o (s i))) (put C st i y) os1 st1 Hp'); [|exact E1].
    intros n. unfold enter, put. destruct (n =? i); [|apply Hs]. clear -T Ho Eo Hs.
    pose proof (Hs i) as Hi. destruct o; cbn [exec_op called callable] in *;
      try (destruct (c_array C (st i)); [|discriminate Eo|discriminate Eo]; rewrite bind_ok in Eo;
           repeat match type of Eo with bind ?e _ = _ => destruct e; [|discriminate Eo|discriminate Eo]; rewrite bind_ok in Eo end; injection Eo as <- _; exact Hi).
    + destruct (c_add C d (st i)) as [z| |] eqn:Ez; [|discriminate Eo|discriminate Eo]. rewrite bind_ok in Eo. injection Eo as <- _. exact (tr_add _ _ _ T _ _ d Hi Ho z Ez).
    + destruct (c_finalize C (st i)) as [z| |] eqn:Ez; [|discriminate Eo|discriminate Eo]. rewrite bind_ok in Eo. injection Eo as <- _. exact (tr_fin _ _ _ T _ _ Hi z Ez).
    + injection Eo as <- _. exact (tr_reset _ _ _ T _ _ Hi).
  - inversion_clear Hp as [|? ? Ho Hp']. apply (IH (enter k s i (s j)) (put C st i (st j)) os st' Hp'); [|exact E].
    intros n. unfold enter, put. destruct (n =? i); auto.
Qed.

(** addData() treats the buffer in the same way whatever the compression function does *)
Section Contents.
  Context {St : Type}.
  Variables (B cap : nat) (dbg : bool) (impl : list N -> St -> res St).
  Let none : list N -> unit -> res unit := fun _ _ => Ok tt.
  Lemma tail_contents d b s : post (addData_tail St B cap dbg impl d b s) (fun o => addData_tail unit B cap dbg none d b tt = Ok (fst o, tt)).
  Proof.
    intros [b' s'] E. unfold addData_tail in *. destruct (_ <? _).
    - destruct (buf_of_range _ _ _); [|discriminate E|discriminate E]. rewrite bind_ok in E. injection E as <- <-. reflexivity.
    - destruct (span_first _ _); [|discriminate E|discriminate E]. rewrite bind_ok in E. rewrite bind_ok.
      destruct (impl _ _); [|discriminate E|discriminate E]. rewrite bind_ok in E. unfold none. rewrite bind_ok.
      destruct (_ <? _); [|injection E as <- <-; reflexivity].
      destruct (buf_of_range _ _ _); [|discriminate E|discriminate E]. rewrite bind_ok in E. injection E as <- <-. reflexivity.
  Qed.
  Lemma add_contents d o : post (addData St B cap dbg impl d o) (fun p => addData unit B cap dbg none d (fst o, tt) = Ok (fst p, tt)).
  Proof.
    destruct o as [b s]. cbn [fst]. intros p E. unfold addData in *. destruct (negb _); [|exact (tail_contents d b s p E)].
    destruct (buf_push_back _ _ _) as [x| |]; [|discriminate E|discriminate E]. rewrite bind_ok in E. rewrite bind_ok.
    destruct (buf_size x <? B); [injection E as <-; reflexivity|].
    destruct (impl _ _); [|discriminate E|discriminate E]. rewrite bind_ok in E. unfold none. rewrite bind_ok. fold none.
    destruct (span_subspan _ _); [|discriminate E|discriminate E]. rewrite bind_ok in E. rewrite bind_ok. exact (tail_contents _ _ _ p E).
  Qed.
  Lemma tail2_contents d s : post (Blake2.addData_tail St B dbg impl d s) (fun o => Blake2.addData_tail unit B dbg none d tt = Ok (fst o, tt)).
  Proof.
    intros [b' s'] E. unfold Blake2.addData_tail in *. destruct (_ <=? length d); [|discriminate E].
    destruct (span_first _ _); [|discriminate E|discriminate E]. rewrite bind_ok in E. rewrite bind_ok.
    destruct (impl _ _); [|discriminate E|discriminate E]. rewrite bind_ok in E. unfold none. rewrite bind_ok.
    destruct (buf_of_range _ _ _); [|discriminate E|discriminate E]. rewrite bind_ok in E. injection E as <- <-. reflexivity.
  Qed.
  Lemma add2_contents fuel : forall d o, post (Blake2.addData_rec St B dbg impl fuel d o) (fun p => Blake2.addData_rec unit B dbg none fuel d (fst o, tt) = Ok (fst p, tt)).
  Proof.
    induction fuel as [|fuel IH]; intros d [b s] p E; cbn [Blake2.addData_rec fst] in *; [discriminate E|]. destruct d as [|d0 d]; [injection E as <-; reflexivity|].
    destruct (_ =? _).
    - destruct (impl _ _); [|discriminate E|discriminate E]. rewrite bind_ok in E. unfold none at 1. rewrite bind_ok. exact (tail2_contents _ _ p E).
    - destruct (negb _); [|exact (tail2_contents _ _ p E)].
      destruct (buf_push_back _ _ _) as [x| |]; [|discriminate E|discriminate E]. rewrite bind_ok in E. rewrite bind_ok.
      destruct (span_subspan _ _); [|discriminate E|discriminate E]. rewrite bind_ok in E. rewrite bind_ok. exact (IH _ _ p E).
  Qed.

  Hypothesis HB : 0 < B.
  Hypothesis HB64 : (N.of_nat B < 2 ^ 64)%N.
  Lemma add_waiting (m d : list N) o : B <= cap -> bytes_ok m -> span_ok d -> fst o = canon cap (waiting false B m) ->
    post (addData St B cap dbg impl d o) (fun p => fst p = canon cap (waiting false B (m ++ d))).
  Proof.
    intros Hc Hm Hd Ho p E. apply add_contents in E. rewrite Ho in E.
    pose proof (addData_ok B cap dbg none (fun _ => True) (fun _ u => u) tt HB Hc I HB64) as A.
    unfold absorb in A. specialize (A ltac:(intros ? []; reflexivity) ltac:(auto) ltac:(auto) m d Hm Hd). unfold rest, whole in A. unfold waiting in E.
    rewrite A in E. injection E as <-. reflexivity.
  Qed.
  Lemma add2_waiting (m d : list N) o : bytes_ok m -> bytes_ok d -> fst o = canon B (waiting true B m) ->
    post (Blake2.addData St B dbg impl d o) (fun p => fst p = canon B (waiting true B (m ++ d))).
  Proof.
    intros Hm Hd Ho p E. apply add2_contents in E. rewrite Ho in E.
    pose proof (addData2_ok B dbg none (fun _ => True) (fun _ u => u) tt HB I) as A.
    unfold absorb2 in A. specialize (A ltac:(intros ? []; reflexivity) ltac:(auto) ltac:(auto) m d Hm Hd). unfold lastp, keep in A. unfold waiting in E.
    unfold Blake2.addData in A. rewrite A in E. injection E as <-. reflexivity.
  Qed.
End Contents.

(** ** every class with a buffer *)
Record Buffered (B cap : nat) (late : bool) (C : HashClass) (get : Obj C -> option Buffer) : Prop := {
  bu_some : forall x, exists b, get x = Some b;
  bu_new : get (c_new C) = Some (buf_new cap);
  bu_size : forall d x b, get x = Some b -> sized cap b -> post (c_add C d x) (fun y => exists b, get y = Some b /\ sized cap b);
  bu_add : forall m d x, bytes_ok m -> span_ok d -> get x = Some (canon cap (waiting late B m)) ->
    post (c_add C d x) (fun y => get y = Some (canon cap (waiting late B (m ++ d))));
  bu_fin : forall x b, get x = Some b -> sized cap b -> post (c_finalize C x) (fun y => get y = Some (buf_new cap));
  bu_reset : forall x b, get x = Some b -> sized cap b -> get (c_reset C x) = Some (buf_new cap)
}.

Lemma buffered_pair {St} B cap dbg (impl : list N -> St -> res St) s0 fin rs arr :
  0 < B -> B <= cap -> (N.of_nat B < 2 ^ 64)%N ->
  (forall o, sized cap (fst o) -> post (fin o) (wiped cap)) ->
  (forall o, fst (rs o) = buf_clear (fst o)) ->
  Buffered B cap false (mkClass (Buffer * St) (buf_new cap, s0) (addData St B cap dbg impl) fin rs arr) (fun x => Some (fst x)).
Proof.
  intros HB Hc H64 Hf Hr. constructor; cbn [Obj c_new c_add c_finalize c_reset].
  - intros x. now exists (fst x).
  - reflexivity.
  - intros d x b [= <-] Hs. apply (post_weaken _ _ _ (sized_add B cap dbg impl d x Hs)). intros y Hy. now exists (fst y).
  - intros m d x Hm Hd [= Hx]. apply (post_weaken _ _ _ (add_waiting B cap dbg impl HB H64 m d x Hc Hm Hd Hx)). intros y ->. reflexivity.
  - intros x b [= <-] Hs. apply (post_weaken _ _ _ (Hf x Hs)). intros y ->. reflexivity.
  - intros x b [= <-] Hs. now rewrite Hr, (sized_clear cap _ Hs).
Qed.
Lemma buffered_late {St} B dbg (impl : list N -> St -> res St) s0 fin rs arr :
  0 < B -> (N.of_nat B < 2 ^ 64)%N ->
  (forall o, sized B (fst o) -> post (fin o) (wiped B)) ->
  (forall o, fst (rs o) = buf_clear (fst o)) ->
  Buffered B B true (mkClass (Buffer * St) (buf_new B, s0) (Blake2.addData St B dbg impl) fin rs arr) (fun x => Some (fst x)).
Proof.
  intros HB H64 Hf Hr. constructor; cbn [Obj c_new c_add c_finalize c_reset].
  - intros x. now exists (fst x).
  - reflexivity.
  - intros d x b [= <-] Hs. apply (post_weaken _ _ _ (sized_add2 B dbg impl 3 d x Hs)). intros y Hy. now exists (fst y).
  - intros m d x Hm Hd [= Hx]. apply (post_weaken _ _ _ (add2_waiting B dbg impl HB m d x Hm (proj1 Hd) Hx)). intros y ->. reflexivity.
  - intros x b [= <-] Hs. apply (post_weaken _ _ _ (Hf x Hs)). intros y ->. reflexivity.
  - intros x b [= <-] Hs. now rewrite Hr, (sized_clear B _ Hs).
Qed.

Lemma buffered_class a dbg B cap late : buffering a = Some (B, cap, late) -> Buffered B cap late (class a dbg) (buffer a dbg).
Proof.
  destruct a; intros E; try discriminate E; injection E as <- <- <-;
    (refine (buffered_pair _ _ dbg _ _ _ _ _ _ _ _ _ _) || refine (buffered_late _ dbg _ _ _ _ _ _ _ _ _));
    try lia; try reflexivity; intros o Ho;
    first [now apply md_wiped; [auto|]|now apply md8_wiped|now apply blake1_wiped|now apply blake2_wiped|now apply md2_wiped|now apply sip_wiped|now apply keccak_wiped].
Qed.

Lemma waiting_length late B cap m : 0 < B -> B <= cap -> length (waiting late B m) <= cap.
Proof.
  intros HB Hc. unfold waiting. destruct late; rewrite skipn_length.
  - pose proof (lastp_le B m HB) as H. unfold lastp, keep in H. rewrite skipn_length in H. lia.
  - pose proof (rest_lt B m HB) as H. unfold rest, whole in H. rewrite skipn_length in H. lia.
Qed.
Lemma buffering_sizes a B cap late : buffering a = Some (B, cap, late) -> 0 < B /\ B <= cap.
Proof. destruct a; intros E; try discriminate E; injection E as <- <- <-; lia. Qed.
Lemma sized_canon cap r : length r <= cap -> sized cap (canon cap r).
Proof. apply canon_arr_length. Qed.
Lemma waiting_nil late B : waiting late B [] = [].
Proof. unfold waiting. destruct late; apply skipn_nil. Qed.

Theorem buffer_tracks a dbg B cap late : buffering a = Some (B, cap, late) ->
  Tracks given (class a dbg) (fun m x => bytes_ok m /\ buffer a dbg x = Some (canon cap (waiting late B m))).
Proof.
  intros E. pose proof (buffered_class a dbg B cap late E) as K. destruct (buffering_sizes _ _ _ _ E) as [HB Hc]. destruct K.
  assert (Z : Some (buf_new cap) = Some (canon cap (waiting late B []))) by (rewrite waiting_nil, canon_nil; reflexivity).
  constructor; cbn [given Book k_new Ledger.k_add k_finalize k_reset].
  - split; [apply Forall_nil|]. now rewrite <- Z.
  - intros m x d [Hm Hx] Hd. apply (post_weaken _ _ _ (bu_add0 m d x Hm Hd Hx)). intros y Hy. split; [|exact Hy]. apply bytes_ok_app. split; [exact Hm|apply Hd].
  - intros m x [Hm Hx]. apply (post_weaken _ _ _ (bu_fin0 x _ Hx (sized_canon _ _ (waiting_length _ _ _ _ HB Hc)))). intros y Hy. split; [apply Forall_nil|]. now rewrite Hy.
  - intros m x [Hm Hx]. split; [apply Forall_nil|]. now rewrite (bu_reset0 x _ Hx (sized_canon _ _ (waiting_length _ _ _ _ HB Hc))).
Qed.

Theorem buffer_exec a dbg B cap late p os st : buffering a = Some (B, cap, late) -> Forall (callable true) p ->
  exec (class a dbg) p (fun _ => c_new (class a dbg)) = Ok (os, st) ->
  forall i, buffer a dbg (st i) = Some (canon cap (waiting late B (left given p (fun _ => []) i))).
Proof.
  intros E Hp Ex i. refine (proj2 (tracks_exec given _ _ (buffer_tracks a dbg B cap late E) p (fun _ => []) _ os st Hp _ Ex i)).
  intros j. exact (tr_new _ _ _ (buffer_tracks a dbg B cap late E)).
Qed.

(** ** reset() *)
Lemma sized_kept a dbg B cap late : buffering a = Some (B, cap, late) ->
  Kept (class a dbg) (fun x => exists b, buffer a dbg x = Some b /\ sized cap b).
Proof.
  intros E. destruct (buffered_class a dbg B cap late E).
  constructor.
  - exists (buf_new cap). split; [exact bu_new0|apply sized_new].
  - intros d x _ (b & Hb & Hs). exact (bu_size0 d x b Hb Hs).
  - intros x (b & Hb & Hs). apply (post_weaken _ _ _ (bu_fin0 x b Hb Hs)). intros y Hy. exists (buf_new cap). split; [exact Hy|apply sized_new].
  - intros x (b & Hb & Hs). exists (buf_new cap). split; [exact (bu_reset0 x b Hb Hs)|apply sized_new].
Qed.

Lemma sip_keys dbg k0 k1 : Kept (class (SipHash k0 k1) dbg) (fun x => SipHash.s_k0 (snd x) = k0 /\ SipHash.s_k1 (snd x) = k1).
Proof.
  set (I := fun s : SipHash.St => SipHash.s_k0 s = k0 /\ SipHash.s_k1 s = k1).
  assert (Hi : forall d s, I s -> post (SipHash.addDataImpl 2 dbg d s) I).
  { intros d s Hs. unfold SipHash.addDataImpl. apply post_any. intros _. apply post_any. intros v. apply post_ok. exact Hs. }
  constructor.
  - split; reflexivity.
  - intros d x _ Hx. exact (post_addData 8 16 dbg _ I Hi d x Hx).
  - intros [b s] Hx. change (post (SipHash.finalize 2 4 dbg (b, s)) (fun x => I (snd x))). unfold SipHash.finalize. destruct (7 <? _); [apply post_ub|].
    apply post_any. intros b1. apply post_any. intros b2. apply (post_bind _ _ I); [apply Hi, Hx|]. intros t Ht. destruct (SipHash.s_v t). apply post_any. intros u. apply post_ok. exact Ht.
  - intros x Hx. exact Hx.
Qed.

Lemma keccak_length R P dbg n : Kept (Keccak.cls R P dbg n) (fun x => Keccak.k_len (snd x) = n).
Proof.
  set (I := fun s : Keccak.St => Keccak.k_len s = n).
  assert (Hi : forall d s, I s -> post (Keccak.impl R dbg d s) I).
  { intros d s Hs. unfold Keccak.impl. apply post_any. intros _. apply post_any. intros v. apply post_ok. exact Hs. }
  assert (Hq : forall f s, I s -> post (Keccak.squish R dbg f s) I).
  { induction f as [|f IH]; intros s Hs; cbn [Keccak.squish]; [apply post_ub|]. apply post_any. intros h. destruct (_ <=? _); [apply post_ok; exact Hs|].
    apply (post_bind _ _ I); [apply Hi; exact Hs|]. intros t Ht. apply IH, Ht. }
  constructor.
  - reflexivity.
  - intros d x _ Hx. exact (post_addData R R dbg _ I Hi d x Hx).
  - intros [b s] Hx. change (post (Keccak.finalize R P dbg (b, s)) (fun x => I (snd x))). unfold Keccak.finalize.
    do 4 (apply post_any; intros ?). apply (post_bind _ _ I); [apply Hi, Hx|]. intros t Ht. apply (post_bind _ _ I); [apply Hq, Ht|]. intros u Hu. apply post_ok. exact Hu.
  - intros x Hx. exact Hx.
Qed.

Lemma keccak_reset R P dbg n x : Reachable (Keccak.cls R P dbg n) x -> sized R (fst x) -> c_reset (Keccak.cls R P dbg n) x = c_new (Keccak.cls R P dbg n).
Proof.
  intros HR Hs. pose proof (kept_reachable _ _ x (keccak_length R P dbg n) HR) as E. cbn beta in E. destruct x as [b [s f l]].
  cbn [fst snd Keccak.k_len Obj Keccak.cls] in *. subst l. cbn [c_reset c_new Keccak.cls]. unfold Keccak.new, Keccak.reset. cbn [fst snd Keccak.k_len].
  now rewrite (sized_clear R b Hs), (sized_clear R _ (sized_new R)).
Qed.
Lemma sip_reset dbg k0 k1 x : Reachable (class (SipHash k0 k1) dbg) x -> sized 16 (fst x) -> c_reset (class (SipHash k0 k1) dbg) x = c_new (class (SipHash k0 k1) dbg).
Proof.
  intros HR Hs. destruct (kept_reachable _ _ x (sip_keys dbg k0 k1) HR) as [E1 E2]. destruct x as [b s].
  cbn [fst snd] in *. change (SipHash.reset (b, s) = (buf_new 16, SipHash.start k0 k1)). unfold SipHash.reset. cbn [fst snd].
  now rewrite (sized_clear 16 b Hs), E1, E2.
Qed.

(** after reset() the object is the new object, bit for bit, whatever the program was *)
Theorem reset_new a dbg x : fnv0 a = false -> Reachable (class a dbg) x -> c_reset (class a dbg) x = c_new (class a dbg).
Proof.
  intros Hf HR. destruct (buffering a) as [[[B cap] late]|] eqn:E.
  - destruct (kept_reachable _ _ x (sized_kept a dbg B cap late E) HR) as (b & Hb & Hs).
    destruct a; try discriminate E; injection E as <- <- <-; injection Hb as <-;
      first [exact (keccak_reset _ _ dbg _ x HR Hs)|exact (sip_reset dbg _ _ x HR Hs)|destruct x as [b s]; refine (f_equal (fun b => (b, _)) (sized_clear _ b Hs))].
  - destruct a; try discriminate E; try discriminate Hf; reflexivity.
Qed.

(** ** finalized objects *)
(** the same bytes one by one give the same object *)
Definition singles (m : list N) : list (list N) := map (fun b => [b]) m.
Lemma singles_concat m : concat (singles m) = m.
Proof. induction m as [|b m IH]; [reflexivity|]. cbn [singles map concat app]. now f_equal. Qed.
Lemma singles_ok m : bytes_ok m -> Forall span_ok (singles m).
Proof. induction 1 as [|b m Hb Hm IH]; constructor; [|exact IH]. split; [now constructor|]. now vm_compute. Qed.
Lemma singles_lengths m n : length m = length n -> map (@length N) (singles m) = map (@length N) (singles n).
Proof. unfold singles. rewrite !map_map. cbn [length]. revert n. induction m as [|b m IH]; intros [|c n] E; try discriminate E; [reflexivity|]. cbn [map]. f_equal. apply IH. now injection E. Qed.
Lemma rechunk C hash dom ds x : Correct C hash dom -> Forall span_ok ds -> digested C ds x -> digested C (singles (concat ds)) x.
Proof.
  intros (ab & dn & HI) Hds (x0 & E0 & E). exists x0. split; [|exact E]. rewrite <- E0, (im_new _ _ _ _ _ HI).
  rewrite (foldM_absorb HI ds Hds [] (Forall_nil _)), (foldM_absorb HI _ (singles_ok _ (Collide.concat_bytes ds Hds)) [] (Forall_nil _)), singles_concat. reflexivity.
Qed.
Lemma rechunk_class a dbg ds x : well_formed a -> fnv0 a = false -> Forall span_ok ds -> digested (class a dbg) ds x -> digested (class a dbg) (singles (concat ds)) x.
Proof.
  intros Hw Hf Hds D. destruct (unreadable a) eqn:Hu.
  - assert (forall a' (x : Obj (class a' dbg)), a' = Tiger1_192 \/ a' = Tiger2_192 -> digested (class a' dbg) ds x -> digested (class a' dbg) (singles (concat ds)) x) as T.
    { intros a' y [->| ->] Dy; [destruct (Library.library_known Tiger1_192 I eq_refl eq_refl) as (h & HC & _)|destruct (Library.library_known Tiger2_192 I eq_refl eq_refl) as (h & HC & _)];
      exact (rechunk _ _ _ ds y (HC dbg) Hds Dy). }
    destruct a; try discriminate Hu; first [exact (T Tiger1_192 x (or_introl eq_refl) D)|exact (T Tiger2_192 x (or_intror eq_refl) D)].
  - destruct (Library.library_known a Hw Hu Hf) as (h & HC & _). exact (rechunk _ _ _ ds x (HC dbg) Hds D).
Qed.

Lemma level_new {St T} (pi : St -> T) o : level pi o o.
Proof. repeat split. Qed.
Section Same.
  Context {St T : Type}.
  Variables (C : HashClass) (pi : St -> T) (add : list N -> Buffer * St -> res (Buffer * St)) (fin : Buffer * St -> res (Buffer * St)) (o : Buffer * St).
  Hypothesis Hadd : forall d e o p, length d = length e -> level pi o p -> both (level pi) (add d o) (add e p).
  Hypothesis Hfin : forall o p, level pi o p -> both (settled pi) (fin o) (fin p).
  Lemma same_settled ds es x0 y0 x y : map (@length N) ds = map (@length N) es ->
    foldM add ds o = Ok x0 -> fin x0 = Ok x -> foldM add es o = Ok y0 -> fin y0 = Ok y -> settled pi x y.
  Proof using Hadd Hfin.
    intros L E1 E2 F1 F2. refine (Hfin x0 y0 _ x y E2 F2). exact (feed_level pi add o Hadd ds es L x0 y0 E1 F1).
  Qed.
End Same.

Lemma md_same {H} B dbg pb wl (compress : list N -> H -> res H) iv arr ds es x y : wl = write_len_be \/ wl = write_len_le ->
  map (@length N) ds = map (@length N) es -> let C := md_class B dbg pb wl compress iv arr in
  digested C ds x -> digested C es y -> md_h (snd x) = md_h (snd y) -> x = y.
Proof.
  intros W L C (x0 & E1 & E2) (y0 & F1 & F2) Eh.
  destruct (same_settled md_cnt (addData (MD H) B (2 * B) dbg (md_impl B dbg compress)) (md_finalize B dbg pb wl (md_impl B dbg compress)) (c_new C)
    (add_level B (2 * B) dbg (md_impl B dbg compress) md_cnt (md_impl_level B dbg compress))
    ltac:(intros o p Hop; apply md_fin_level; [destruct W as [-> | ->]; [exact len_be_level|exact len_le_level]|exact Hop]) ds es x0 y0 x y L E1 E2 F1 F2) as [S1 S2].
  destruct x as [b [c h]], y as [b' [c' h']]. cbn in *. congruence.
Qed.
Lemma md8_same {H} B r dbg (compress : list N -> H -> res H) iv arr ds es x y :
  map (@length N) ds = map (@length N) es -> let C := md128_class B r dbg compress iv arr in
  digested C ds x -> digested C es y -> md8_h (snd x) = md8_h (snd y) -> x = y.
Proof.
  intros L C (x0 & E1 & E2) (y0 & F1 & F2) Eh.
  destruct (same_settled md8_cnt (addData (MD128 H) B (2 * B) dbg (md128_impl B dbg compress)) (md128_finalize B r dbg (md128_impl B dbg compress)) (c_new C)
    (add_level B (2 * B) dbg (md128_impl B dbg compress) md8_cnt (md8_impl_level B dbg compress)) (md8_fin_level B dbg compress r) ds es x0 y0 x y L E1 E2 F1 F2) as [S1 S2].
  destruct x as [b [c h]], y as [b' [c' h']]. cbn in *. congruence.
Qed.
Lemma blake1_same w nb r1 r2 r3 r4 tbl F calls K narrow lastbit dbg iv size n ds es x y :
  map (@length N) ds = map (@length N) es -> let C := Blake1.cls w nb r1 r2 r3 r4 tbl F calls K narrow lastbit dbg iv size n in
  digested C ds x -> digested C es y -> snd (snd x) = snd (snd y) -> x = y.
Proof.
  intros L C (x0 & E1 & E2) (y0 & F1 & F2) Eh.
  destruct (same_settled fst _ _ (c_new C) (add_level _ _ dbg _ fst (blake1_impl_level w nb r1 r2 r3 r4 tbl F calls K narrow dbg 0))
    (blake1_fin_level w nb r1 r2 r3 r4 tbl F calls K narrow lastbit dbg) ds es x0 y0 x y L E1 E2 F1 F2) as [S1 S2].
  destruct x as [b [c h]], y as [b' [c' h']]. cbn in *. congruence.
Qed.
Lemma blake2_same w nb r1 r2 r3 r4 tbl F calls K dbg size ds es x y :
  map (@length N) ds = map (@length N) es -> let C := Blake2.cls w nb r1 r2 r3 r4 tbl F calls K dbg size in
  digested C ds x -> digested C es y -> snd (snd x) = snd (snd y) -> x = y.
Proof.
  intros L C (x0 & E1 & E2) (y0 & F1 & F2) Eh.
  destruct (same_settled fst _ _ (c_new C) (add2_level _ dbg _ fst (blake2_impl_level w nb r1 r2 r3 r4 tbl F calls K dbg false 0) 3)
    (blake2_fin_level w nb r1 r2 r3 r4 tbl F calls K dbg) ds es x0 y0 x y L E1 E2 F1 F2) as [S1 S2].
  destruct x as [b [c h]], y as [b' [c' h']]. cbn in *. congruence.
Qed.
Lemma sip_same c d dbg k0 k1 ds es x y : map (@length N) ds = map (@length N) es -> let C := SipHash.cls c d dbg k0 k1 in
  digested C ds x -> digested C es y -> SipHash.s_v (snd x) = SipHash.s_v (snd y) -> x = y.
Proof.
  intros L C (x0 & E1 & E2) (y0 & F1 & F2) Eh.
  destruct (same_settled sip _ _ (c_new C) (add_level 8 16 dbg _ sip (sip_impl_level c dbg)) (sip_fin_level c d dbg) ds es x0 y0 x y L E1 E2 F1 F2) as [S1 S2].
  destruct x as [b [u k l v]], y as [b' [u' k' l' v']]. unfold sip in S2. cbn in *. congruence.
Qed.
Lemma keccak_same R P dbg n ds es x y : map (@length N) ds = map (@length N) es -> let C := Keccak.cls R P dbg n in
  digested C ds x -> digested C es y -> Keccak.k_state (snd x) = Keccak.k_state (snd y) -> Keccak.k_final (snd x) = Keccak.k_final (snd y) -> x = y.
Proof.
  intros L C (x0 & E1 & E2) (y0 & F1 & F2) Eh Ef.
  destruct (same_settled Keccak.k_len _ _ (c_new C) (add_level R R dbg _ Keccak.k_len (keccak_impl_level R dbg)) (keccak_fin_level R P dbg) ds es x0 y0 x y L E1 E2 F1 F2) as [S1 S2].
  destruct x as [b [u k l]], y as [b' [u' k' l']]. cbn in *. congruence.
Qed.

(** an object that was digested is finalized in the sense of a legal program *)
Lemma digested_finalized C ds x : Forall span_ok ds -> digested C ds x -> Finalized C x.
Proof.
  intros Hds (x0 & E0 & E). set (p := map (fun d => On 0 (AddData d)) ds ++ [On 0 Finalize]).
  assert (G : forall st, foldM (c_add C) ds (st 0) = Ok x0 -> exists st', exec C p st = Ok ([], st') /\ st' 0 = x).
  { clear E0. unfold p. clear p. induction Hds as [|d ds _ _ IH]; intros st E0; cbn [map app foldM exec exec_op] in *.
    - injection E0 as ->. rewrite E, !bind_ok. cbn [fst snd]. exists (put C st 0 x). split; reflexivity.
    - destruct (c_add C d (st 0)) as [z| |]; [|discriminate E0|discriminate E0]. rewrite bind_ok in E0. rewrite !bind_ok. cbn [fst snd].
      destruct (IH (put C st 0 z) E0) as (st' & E1 & E2). exists st'. rewrite E1, bind_ok. split; [reflexivity|exact E2]. }
  destruct (G (fun _ => c_new C) E0) as (st' & E1 & E2).
  assert (Lg : forall s, s 0 = false -> exists s', legal True p s s' /\ s' 0 = true).
  { clear -Hds. unfold p. clear p. induction Hds as [|d ds Hd _ IH]; intros s Hs; cbn [map app].
    - exists (set_flag s 0 true). split; [|reflexivity]. apply (le_on _ 0 Finalize [] s true); [rewrite Hs; apply lo_fin|apply le_nil].
    - destruct (IH (set_flag s 0 false) eq_refl) as (s' & L & T). exists s'. split; [|exact T]. apply (le_on _ 0 (AddData d) _ s false); [rewrite Hs; now apply lo_add|exact L]. }
  destruct (Lg (fun _ => false) eq_refl) as (s' & L & T). exists True, p, s', [], st', 0. repeat split; auto.
Qed.

(** ** MD2: the last block of the checksum can be computed from m_x *)
Module MD2.
Module S := Verif.Spec.Md2.
Lemma pass_tail t : forall X Y, S.pass t X = S.pass t Y -> X = Y.
Proof.
  intros X. revert t. induction X as [|x X IH]; intros t [|y Y] E; try discriminate E; [reflexivity|]. cbn [S.pass] in E.
  injection E as E1 E2. assert (x = y) as ->. { apply (f_equal (fun v => N.lxor v (S.S t))) in E1. now rewrite !N.lxor_assoc, !N.lxor_nilpotent, !N.lxor_0_r in E1. }
  f_equal. apply (IH _ Y E2).
Qed.
Lemma pass_cons t u x y X Y : S.pass t (x :: X) = S.pass u (y :: Y) -> X = Y /\ (t = u -> x = y).
Proof.
  cbn [S.pass]. intros E. injection E as E1 E2. rewrite E1 in E2. split; [exact (pass_tail _ X Y E2)|]. intros ->.
  apply (f_equal (fun v => N.lxor v (S.S u))) in E1. now rewrite !N.lxor_assoc, !N.lxor_nilpotent, !N.lxor_0_r in E1.
Qed.
Lemma rounds_back n : forall j X t Y u, length X = 48 -> length Y = 48 -> (X = Y \/ tl X = tl Y -> t = u) ->
  fst (fold_left S.round (seq j n) (X, t)) = fst (fold_left S.round (seq j n) (Y, u)) -> X = Y.
Proof.
  induction n as [|n IH]; intros j X t Y u HX HY Ht E; cbn [seq fold_left] in E; [exact E|].
  unfold S.round at 2 4 in E. cbn [fst snd] in E.
  assert (P : S.pass t X = S.pass u Y).
  { apply (IH _ _ _ _ _ ltac:(rewrite Md2.pass_length; exact HX) ltac:(rewrite Md2.pass_length; exact HY)) in E; [exact E|].
    assert (Lx : length (S.pass t X) = 48) by (rewrite Md2.pass_length; exact HX). assert (Ly : length (S.pass u Y) = 48) by (rewrite Md2.pass_length; exact HY).
    destruct (S.pass t X) as [|a [|b A]], (S.pass u Y) as [|c [|d D]]; try discriminate Lx; try discriminate Ly. intros [E0|E0]; [now rewrite E0|].
    cbn [tl] in E0. injection E0 as -> ->. reflexivity. }
  destruct X as [|x X], Y as [|y Y]; try discriminate HX; try discriminate HY. destruct (pass_cons _ _ _ _ _ _ P) as [-> Q]. f_equal. apply Q, Ht. right. reflexivity.
Qed.
Transparent S.absorb_block.
Lemma absorb_unfold X b : S.absorb_block X b = fst (fold_left S.round (seq 0 18) (firstn 16 X ++ b ++ map (fun '(a, b) => N.lxor a b) (combine b (firstn 16 X)), 0%N)).
Proof. unfold S.absorb_block. reflexivity. Qed.
Lemma absorb_back X Y b c : 16 <= length X -> 16 <= length Y -> length b = 16 -> length c = 16 -> S.absorb_block X b = S.absorb_block Y c -> b = c.
Proof.
  intros HX HY Hb Hc E. rewrite !absorb_unfold in E.
  assert (forall X b : list N, 16 <= length X -> length b = 16 -> length (firstn 16 X ++ b ++ map (fun '(a, b) => N.lxor a b) (combine b (firstn 16 X))) = 48) as L.
  { clear. intros X b HX Hb. rewrite !app_length, map_length, combine_length, firstn_length, Hb. lia. }
  apply (rounds_back 18 0) in E; [|now apply L|now apply L|reflexivity].
  assert (length (firstn 16 X) = length (firstn 16 Y)) as Lf by (rewrite !firstn_length; lia).
  apply Encode.app_inj_len in E; [|exact Lf]. destruct E as [_ E]. apply Encode.app_inj_len in E; [|congruence]. apply E.
Qed.

Lemma done_same m n : bytes_ok m -> bytes_ok n -> Model.Md2.m_x (snd (Md2.done m)) = Model.Md2.m_x (snd (Md2.done n)) -> Md2.done m = Md2.done n.
Proof.
  intros Hm Hn E. destruct (Md2.state_ok m Hm) as (X1 & _ & C1 & _ & _), (Md2.state_ok n Hn) as (X2 & _ & C2 & _ & _).
  unfold Md2.done in *. cbn [snd] in E.
  assert (Run : forall s b, length b = 16 -> Md2.run b s = Md2.cf s b).
  { intros s b Hb. unfold Md2.run, Merkle.chain. rewrite <- (app_nil_r b) at 1. rewrite pieces_cons by (auto; lia). reflexivity. }
  rewrite (Run _ _ C1), (Run _ _ C2) in *. rewrite !Md2.cf_x in E. pose proof (absorb_back _ _ _ _ ltac:(rewrite X1; lia) ltac:(rewrite X2; lia) C1 C2 E) as Ec.
  unfold Md2.cf. now rewrite E, Ec.
Qed.
End MD2.

(** ** all classes: what == does not compare is a function of the length *)
Lemma eq_words n l r : length l = n -> length r = n -> eq_array n l r = Ok true -> l = r.
Proof. intros Hl Hr E. destruct (Equality.eq_array_spec n l r Hl Hr) as (b & Eb & Hb). rewrite E in Eb. apply Hb. now apply Proof.Crc32.Ok_inj in Eb. Qed.
Lemma tiger_eq_h l r : tiger_eq l r = Ok true -> md_h (snd l) = md_h (snd r).
Proof.
  unfold tiger_eq. destruct (md_h (snd l)) as [[u1 u2] u3], (md_h (snd r)) as [[v1 v2] v3]. cbn [tuple3]. intros E.
  apply (eq_words 3) in E; [|reflexivity|reflexivity]. injection E as -> -> ->. reflexivity.
Qed.
Lemma sip_eq_v (u v : SipHash.vec) : eq_array 4 (tuple4 u) (tuple4 v) = Ok true -> u = v.
Proof. destruct u, v. cbn [tuple4]. intros E. apply (eq_words 4) in E; [|reflexivity|reflexivity]. injection E as -> -> -> ->. reflexivity. Qed.
Lemma word_eq_eq l r : word_eq l r = Ok true -> l = r.
Proof. unfold word_eq. intros E. apply Proof.Crc32.Ok_inj in E. now apply N.eqb_eq. Qed.

Tactic Notation "same_md" constr(n) uconstr(H) :=
  match goal with L : map _ _ = _, D : digested _ ?ds ?x, D' : digested _ ?es ?y, E : _ = Ok true, HR : Reachable _ ?x, HR' : Reachable _ ?y |- _ =>
    refine (md_same _ _ _ _ _ _ _ ds es x y _ L D D' (eq_words n _ _ _ _ E)); [first [left; reflexivity|right; reflexivity]| |];
    [refine (proj1 (Equality.md_view _ _ _ _ _ _ _ (words 32 n) x _ H HR))|refine (proj1 (Equality.md_view _ _ _ _ _ _ _ (words 32 n) y _ H HR'))];
    Equality.by_words end.
Tactic Notation "same_md8" uconstr(H) :=
  match goal with L : map _ _ = _, D : digested _ ?ds ?x, D' : digested _ ?es ?y, E : _ = Ok true, HR : Reachable _ ?x, HR' : Reachable _ ?y |- _ =>
    refine (md8_same _ _ _ _ _ _ ds es x y L D D' (eq_words 8 _ _ _ _ E));
    [refine (proj1 (Equality.md128_view _ _ _ _ _ _ (words 64 8) x _ H HR))|refine (proj1 (Equality.md128_view _ _ _ _ _ _ (words 64 8) y _ H HR'))];
    Equality.by_words end.
Tactic Notation "same_blake1" uconstr(H) :=
  match goal with L : map _ _ = _, D : digested _ ?ds ?x, D' : digested _ ?es ?y, E : _ = Ok true, HR : Reachable _ ?x, HR' : Reachable _ ?y |- _ =>
    refine (blake1_same _ _ _ _ _ _ _ _ _ _ _ _ _ _ _ _ ds es x y L D D' (eq_words 8 _ _ _ _ E));
    [refine (proj1 (H x _ HR))|refine (proj1 (H y _ HR'))]; Equality.by_words end.
Ltac same_tiger :=
  match goal with L : map _ _ = _, D : digested _ ?ds ?x, D' : digested _ ?es ?y, E : _ = Ok true |- _ =>
    refine (md_same _ _ _ _ _ _ _ ds es x y (or_intror eq_refl) L D D' (tiger_eq_h x y E)) end.
Ltac same_sponge q :=
  match goal with L : map _ _ = _, D : digested _ ?ds ?x, D' : digested _ ?es ?y, E : _ = Ok true, HR : Reachable _ ?x, HR' : Reachable _ ?y, HF : Finalized _ ?x, HF' : Finalized _ ?y |- _ =>
    refine (keccak_same _ _ _ _ ds es x y L D D' (eq_words 25 _ _ (kept_reachable _ _ x (Shape.keccak_kept _ _ _ _) HR) (kept_reachable _ _ y (Shape.keccak_kept _ _ _ _) HR') E)
      (SpongeEq.sponge_core q _ _ _ x y _ _ HF HF' E)); lia end.

Theorem same_memory a dbg ds es x y : well_formed a -> Forall span_ok ds -> Forall span_ok es -> length (concat ds) = length (concat es) ->
  digested (class a dbg) ds x -> digested (class a dbg) es y -> equal a dbg x y = Ok true -> x = y.
Proof.
  intros Hw Hds Hes L D D' E. destruct (fnv0 a) eqn:Hf.
  { destruct a; try discriminate Hf; exact (word_eq_eq x y E). }
  assert (BO : forall l, Forall span_ok l -> Forall bytes_ok l) by (intros l; apply Forall_impl; intros d [H _]; exact H).
  pose proof (Extension.digested_reachable _ _ _ (BO _ Hds) D) as HR. pose proof (Extension.digested_reachable _ _ _ (BO _ Hes) D') as HR'.
  pose proof (digested_finalized _ _ _ Hds D) as HF. pose proof (digested_finalized _ _ _ Hes D') as HF'.
  destruct (match a with MD2 => true | _ => false end) eqn:Hm2.
  { destruct a; try discriminate Hm2.
    pose proof (kept_reachable _ _ x (Shape.md2_kept dbg) HR) as Lx. pose proof (kept_reachable _ _ y (Shape.md2_kept dbg) HR') as Ly.
    pose proof (eq_words 48 _ _ Lx Ly E) as Ex. clear -Hds Hes D D' Ex.
    apply (Collide.digested_done (Md2.md2_implements dbg) ds x Hds I) in D. apply (Collide.digested_done (Md2.md2_implements dbg) es y Hes I) in D'.
    subst x y. exact (MD2.done_same _ _ (Collide.concat_bytes ds Hds) (Collide.concat_bytes es Hes) Ex). }
  apply (rechunk_class a dbg ds x Hw Hf Hds) in D. apply (rechunk_class a dbg es y Hw Hf Hes) in D'. apply singles_lengths in L.
  destruct a; try discriminate Hf; try discriminate Hm2.
  - same_blake1 (Equality.blake1_view32 _ _ _ _ dbg _ 28 7).
  - same_blake1 (Equality.blake1_view32 _ _ _ _ dbg _ 32 8).
  - same_blake1 (Equality.blake1_view64 _ _ _ _ dbg _ 48 6).
  - same_blake1 (Equality.blake1_view64 _ _ _ _ dbg _ 64 8).
  - exact (blake2_same _ _ _ _ _ _ _ _ _ _ _ _ _ _ x y L D D' (eq_words 8 _ _ (proj1 (Equality.blake2_view dbg x I HR)) (proj1 (Equality.blake2_view dbg y I HR')) E)).
  - exact (blake2_same _ _ _ _ _ _ _ _ _ _ _ _ _ _ x y L D D' (eq_words 8 _ _ (proj1 (Equality.blake2s_view dbg x I HR)) (proj1 (Equality.blake2s_view dbg y I HR')) E)).
  - exact (word_eq_eq x y E).
  - exact (word_eq_eq x y E).
  - exact (word_eq_eq x y E).
  - exact (word_eq_eq x y E).
  - exact (word_eq_eq x y E).
  - same_md 5 Shape.has160_words.
  - same_md 4 Shape.md4_words.
  - same_md 4 Shape.md5_words.
  - same_md 4 Shape.ripemd128_words.
  - same_md 5 Shape.ripemd160_words.
  - same_md 8 Shape.ripemd256_words.
  - same_md 10 Shape.ripemd320_words.
  - same_md 5 Shape.sha1_words.
  - same_md 8 (Shape.sha2_words 32 4 _ _ _ _ _ _).
  - same_md 8 (Shape.sha2_words 32 4 _ _ _ _ _ _).
  - same_md8 (Shape.sha2_words 64 8 _ _ _ _ _ _).
  - same_md8 (Shape.sha2_words 64 8 _ _ _ _ _ _).
  - same_md8 (Shape.sha2_words 64 8 _ _ _ _ _ _).
  - same_md8 (Shape.sha2_words 64 8 _ _ _ _ _ _).
  - same_sponge 18.
  - same_sponge 17.
  - same_sponge 13.
  - same_sponge 9.
  - same_sponge 21.
  - same_sponge 17.
  - exact (sip_same _ _ _ _ _ _ _ x y L D D' (sip_eq_v _ _ E)).
  - same_md 8 Shape.sm3_words.
  - same_tiger.
  - same_tiger.
  - same_tiger.
  - same_tiger.
  - same_tiger.
  - same_tiger.
  - same_md8 Shape.whirlpool_words.
Qed.

(** where the digest is all of what == compares: objects with the same digest and the same length are the same *)
Theorem same_digest a dbg ds es x y d : full a = true -> Forall span_ok ds -> Forall span_ok es -> length (concat ds) = length (concat es) ->
  digested (class a dbg) ds x -> digested (class a dbg) es y -> c_array (class a dbg) x = Ok d -> c_array (class a dbg) y = Ok d -> x = y.
Proof.
  intros Hf Hds Hes L D D' Ex Ey.
  assert (BO : forall l, Forall span_ok l -> Forall bytes_ok l) by (intros l; apply Forall_impl; intros e [H _]; exact H).
  destruct (Equality.library_eq_full a dbg x y Hf (Extension.digested_reachable _ _ _ (BO _ Hds) D) (Extension.digested_reachable _ _ _ (BO _ Hes) D')) as (b & u & v & Eb & _ & Eu & Ev & Hb).
  rewrite Ex in Eu. rewrite Ey in Ev. apply Proof.Crc32.Ok_inj in Eu. apply Proof.Crc32.Ok_inj in Ev. subst u v.
  assert (b = true) as -> by now apply Hb.
  refine (same_memory a dbg ds es x y _ Hds Hes L D D' Eb). destruct a; first [discriminate Hf|exact I].
Qed.
