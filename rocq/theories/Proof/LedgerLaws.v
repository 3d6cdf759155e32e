(** What follows for the Merkle-Damgard classes from the description of their objects. *)
From Coq Require Import List NArith Arith Bool Lia ZArith ZifyNat ZifyN.
From Verif.Base Require Import Res CWord.
From Verif.Spec Require Import Words Client Merkle AnyOrder Ledger.
From Verif.Spec Require Has160 Md4 Md5 Ripemd Sha1 Sha2 Sm3 Tiger Whirlpool.
From Verif.Model Require Import Buffer Stream Api Library.
From Verif.Proof Require Import Words Streaming Api Ledger LedgerLib.
Import ListNotations.

(** ** programs in two parts *)
Lemma told_app k p : forall q s, told k (p ++ q) s = told k p s ++ told k q (left k p s).
Proof.
  induction p as [|[i o|i j] p IH]; intros q s; cbn [told left app]; [reflexivity| |apply IH].
  now rewrite IH, app_assoc.
Qed.

(** ** the schemes of the classes *)
Lemma scheme_facts a S : scheme_of a = Some S -> 0 < s_block S /\ (forall x, length (s_enc S x) = s_field S) /\ (s_width S = 64 \/ s_width S = 128)%N /\
  (s_factor S = 1 \/ s_factor S = 8)%N /\ (s_factor S = 1%N <-> s_width S = 64%N).
Proof.
  assert (forall p r m e w f sh, 0 < p -> (forall x, length (e x) = r) -> (w = 64 /\ f = 1 \/ w = 128 /\ f = 8)%N ->
    let T := mkScheme p r m e w f sh in
    0 < s_block T /\ (forall x, length (s_enc T x) = s_field T) /\ (s_width T = 64 \/ s_width T = 128)%N /\
    (s_factor T = 1 \/ s_factor T = 8)%N /\ (s_factor T = 1%N <-> s_width T = 64%N)) as H.
  { intros p r m e w f sh Hp He [[-> ->]|[-> ->]]; cbn [s_block s_enc s_field s_width s_factor]; repeat split; auto; discriminate. }
  destruct a; try discriminate; intros E; injection E as <-;
    apply H; auto using le_bytes_length, be_bytes_length; lia.
Qed.

Lemma scheme_enc a S : scheme_of a = Some S ->
  s_enc S = le_bytes 8 /\ s_width S = 64%N \/ s_enc S = be_bytes 8 /\ s_width S = 64%N \/
  s_enc S = be_bytes 16 /\ s_width S = 128%N \/ s_enc S = be_bytes 32 /\ s_width S = 128%N.
Proof.
  destruct a; try discriminate; intros E; injection E as <-;
    unfold has160, md4, md5, ripemd128, ripemd160, ripemd256, ripemd320, sha1, sha224, sha256, sha384, sha512, sha512_224, sha512_256, sm3, tiger1, tiger2, whirlpool, le64, be64, be128;
    cbn [s_enc s_width];
    first [left; match goal with |- ?x = ?x /\ _ => split; reflexivity end
          | right; left; match goal with |- ?x = ?x /\ _ => split; reflexivity end
          | right; right; left; match goal with |- ?x = ?x /\ _ => split; reflexivity end
          | right; right; right; match goal with |- ?x = ?x /\ _ => split; reflexivity end].
Qed.
Lemma scheme_small a S : scheme_of a = Some S -> s_block S <= 128 /\ s_field S <= 32.
Proof. destruct a; try discriminate; intros E; injection E as <-; cbn [s_block s_field has160 le64 be64 be128 whirlpool]; unfold has160, md4, md5, ripemd128, ripemd160, ripemd256, ripemd320, sha1, sha224, sha256, sha384, sha512, sha512_224, sha512_256, sm3, tiger1, tiger2, whirlpool, le64, be64, be128; cbn [s_block s_field]; lia. Qed.

Lemma enc_inj a S : scheme_of a = Some S -> forall x y, (8 * x < 2 ^ s_width S -> 8 * y < 2 ^ s_width S ->
  s_enc S ((8 * x) mod 2 ^ s_width S) = s_enc S ((8 * y) mod 2 ^ s_width S) -> x = y)%N.
Proof.
  intros HS x y Hx Hy. rewrite !N.mod_small by assumption. intros E.
  assert (8 * x = 8 * y)%N; [|lia]. revert E.
  assert (forall n u v, (2 ^ s_width S <= 256 ^ N.of_nat n -> u < 2 ^ s_width S -> v < 2 ^ s_width S -> le_bytes n u = le_bytes n v -> u = v)%N) as HL.
  { intros n u v Hn Hu Hv E. rewrite <- (N.mod_small u (256 ^ N.of_nat n)), <- (N.mod_small v (256 ^ N.of_nat n)) by lia.
    rewrite <- !le_value_bytes. now rewrite E. }
  assert (forall n u v, (2 ^ s_width S <= 256 ^ N.of_nat n -> u < 2 ^ s_width S -> v < 2 ^ s_width S -> be_bytes n u = be_bytes n v -> u = v)%N) as HE.
  { intros n u v Hn Hu Hv E. apply (HL n u v Hn Hu Hv). unfold be_bytes in E. now rewrite <- (rev_involutive (le_bytes n u)), E, rev_involutive. }
  destruct (scheme_enc a S HS) as [[E W]|[[E W]|[[E W]|[E W]]]]; rewrite E; [apply (HL 8)|apply (HE 8)|apply (HE 16)|apply (HE 32)];
    try assumption; rewrite W; discriminate.
Qed.

Ltac ok := repeat (apply Forall_cons; [first [assumption | exact (fun _ => eq_refl)]|]); apply Forall_nil.

Section Laws.
  Variables (a : alg) (S : scheme) (dbg : bool).
  Hypothesis HS : scheme_of a = Some S.
  Hypothesis Hu : unreadable a = false.
  Let C := class a dbg.

  Lemma ran p : Forall (callable true) p -> exists st, exec C p (fun _ => c_new C) = Ok (told (ledger_kind S) p (fun _ => l_new), st).
  Proof. intros Hp. apply (library_told a S dbg HS). now rewrite Hu. Qed.

  Let HB : 0 < s_block S.
  Proof. now apply (scheme_facts a). Qed.

  Lemma closed_length n x : length (closed S n x) = 1 + zeros (s_block S) (s_field S) n + s_field S.
  Proof.
    unfold closed. rewrite !app_length, repeat_length. destruct (scheme_facts a S HS) as (_ & -> & _). reflexivity.
  Qed.
  Lemma closed_aligned m x : aligned (s_block S) (m ++ closed S (length m) x).
  Proof. apply (tail_aligned (s_block S) (s_field S)); [exact HB|apply closed_length]. Qed.
  Lemma full_all m : aligned (s_block S) m -> full_blocks S m = m.
  Proof. intros H. now apply all_pre. Qed.

  (** bytes of an incomplete block do not appear in what is shown before finalize() *)
  Theorem early m w : span_ok m -> span_ok w -> length m mod s_block S = 0 -> length w < s_block S ->
    exists st, exec C [On 0 (AddData m); On 0 (AddData w); On 0 ToVector] (fun _ => c_new C) = Ok ([OBytes (s_shown S m)], st).
  Proof.
    intros Hm Hw Ha Hl. destruct (ran [On 0 (AddData m); On 0 (AddData w); On 0 ToVector]) as (st & E).
    { ok. }
    exists st. rewrite E. cbn [told called shows ledger_kind k_digest k_add app Nat.eqb enter l_add l_in l_new].
    do 3 f_equal. change (full_blocks S (m ++ w)) with (pre (s_block S) (m ++ w)).
    now rewrite (proj1 (split_unique (s_block S) m w HB Ha Hl)).
  Qed.

  (** one finalize() *)
  Theorem once m : span_ok m ->
    exists st, exec C [On 0 (AddData m); On 0 Finalize; On 0 ToVector] (fun _ => c_new C) =
      Ok ([OBytes (s_shown S (m ++ closed S (length m) (N.of_nat (length m))))], st).
  Proof.
    intros Hm. destruct (ran [On 0 (AddData m); On 0 Finalize; On 0 ToVector]) as (st & E).
    { ok. }
    exists st. rewrite E. cbn [told called shows ledger_kind k_digest k_add k_finalize app Nat.eqb enter l_add l_in l_new l_finalize l_length].
    rewrite N.add_0_l. now rewrite full_all by apply closed_aligned.
  Qed.

  (** data after finalize(), and finalize() again *)
  Theorem again m d : span_ok m -> span_ok d ->
    let x := m ++ closed S (length m) (N.of_nat (length m)) in
    let y := x ++ d in
    let extra := (if s_factor S =? 1 then 0 else 7 * N.of_nat (length m))%N in
    exists st, exec C [On 0 (AddData m); On 0 Finalize; On 0 (AddData d); On 0 Finalize; On 0 ToVector] (fun _ => c_new C) =
      Ok ([OBytes (s_shown S (y ++ closed S (length y) (N.of_nat (length y) + N.of_nat (length m mod s_block S) + extra)))], st).
  Proof.
    intros Hm Hd x y extra. destruct (ran [On 0 (AddData m); On 0 Finalize; On 0 (AddData d); On 0 Finalize; On 0 ToVector]) as (st & E).
    { ok. }
    exists st. rewrite E. cbn [told called shows ledger_kind k_digest k_add k_finalize app Nat.eqb enter l_add l_in l_new l_finalize l_length].
    rewrite N.add_0_l. fold x. fold y. rewrite full_all by apply closed_aligned.
    match goal with |- context [closed S (length y) ?z] =>
      match goal with |- context [(N.of_nat (length y) + ?u + extra)%N] => replace z with (N.of_nat (length y) + u + extra)%N; [reflexivity|] end end.
    unfold y, x, extra. rewrite !app_length, closed_length.
    destruct (scheme_facts a S HS) as (_ & _ & _ & [-> | ->] & _); cbn [N.eqb Pos.eqb]; lia.
  Qed.
  (** the genuine digest of the padded message followed by [d] *)
  Corollary again_genuine m d : span_ok m -> span_ok d -> length m mod s_block S = 0 -> s_factor S = 1%N \/ m = [] ->
    let x := m ++ closed S (length m) (N.of_nat (length m)) in span_ok (x ++ d) ->
    exists o st st', exec C [On 0 (AddData m); On 0 Finalize; On 0 (AddData d); On 0 Finalize; On 0 ToVector] (fun _ => c_new C) = Ok (o, st) /\
      exec C [On 0 (AddData (x ++ d)); On 0 Finalize; On 0 ToVector] (fun _ => c_new C) = Ok (o, st').
  Proof.
    intros Hm Hd Ha Hf x Hx. destruct (again m d Hm Hd) as (st & E). destruct (once (x ++ d) Hx) as (st' & E').
    fold x in E. rewrite Ha in E.
    replace (N.of_nat (length (x ++ d)) + N.of_nat 0 + (if s_factor S =? 1 then 0 else 7 * N.of_nat (length m)))%N
      with (N.of_nat (length (x ++ d))) in E.
    - do 3 eexists. split; [exact E|exact E'].
    - clear E. destruct Hf as [-> | Hf]; [cbn [N.eqb Pos.eqb]; lia|]. assert (length m = 0)%nat as -> by (rewrite Hf; reflexivity).
      destruct (s_factor S =? 1)%N; lia.
  Qed.
  (** otherwise the length field is not that of the padded message *)
  Corollary again_field m d : (N.of_nat (length m + length d) < 2 ^ 56)%N -> length m mod s_block S <> 0 \/ s_factor S <> 1%N /\ m <> [] ->
    let x := m ++ closed S (length m) (N.of_nat (length m)) in
    let y := x ++ d in
    let extra := (if s_factor S =? 1 then 0 else 7 * N.of_nat (length m))%N in
    closed S (length y) (N.of_nat (length y) + N.of_nat (length m mod s_block S) + extra) <> closed S (length y) (N.of_nat (length y)).
  Proof.
    intros Hl Hne x y extra E. unfold closed in E. apply app_inv_head, app_inv_head in E.
    assert (length x <= length m + 320)%nat as Hx.
    { unfold x. rewrite app_length, closed_length. destruct (scheme_small a S HS) as [H1 H2].
      assert (zeros (s_block S) (s_field S) (length m) < s_block S) by (unfold zeros; apply Nat.mod_upper_bound; lia). lia. }
    assert (length y <= length m + length d + 320)%nat as Hy by (unfold y; rewrite app_length; lia).
    assert (extra <= 7 * N.of_nat (length m))%N as He by (unfold extra; destruct (s_factor S =? 1)%N; lia).
    destruct (scheme_small a S HS) as [H1 _]. pose proof (Nat.mod_upper_bound (length m) (s_block S) ltac:(lia)) as Hr.
    change (2 ^ 56)%N with 72057594037927936%N in Hl.
    assert (N.of_nat (length m mod s_block S) + extra <> 0)%N as Hnz.
    { unfold extra. destruct Hne as [H|[H Hm]]; [lia|]. destruct (N.eqb_spec (s_factor S) 1); [contradiction|]. destruct m; [contradiction|cbn [length]; lia]. }
    assert (2 ^ 64 <= 2 ^ s_width S)%N as Hw by (apply N.pow_le_mono_r; [discriminate|]; destruct (scheme_facts a S HS) as (_ & _ & [-> | ->] & _); discriminate).
    change (2 ^ 64)%N with 18446744073709551616%N in Hw.
    apply (enc_inj a S HS) in E; [|lia|lia]. lia.
  Qed.

  (** reset() after anything *)
  Theorem recovers p i m : Forall (callable true) p -> span_ok m ->
    exists os d st st', exec C p (fun _ => c_new C) = Ok (os, st) /\
      exec C (p ++ [On i Reset; On i (AddData m); On i Finalize; On i ToVector]) (fun _ => c_new C) = Ok (os ++ [d], st') /\
      d = OBytes (s_shown S (m ++ closed S (length m) (N.of_nat (length m)))).
  Proof.
    intros Hp Hm. destruct (ran p Hp) as (st & E).
    destruct (ran (p ++ [On i Reset; On i (AddData m); On i Finalize; On i ToVector])) as (st' & E').
    { apply Forall_app. split; [exact Hp|]. ok. }
    do 4 eexists. split; [exact E|]. split; [|reflexivity]. rewrite E', told_app.
    cbn [told called shows ledger_kind k_digest k_add k_finalize k_reset app]. unfold enter. rewrite !Nat.eqb_refl.
    cbn [l_add l_in l_new l_finalize l_length app]. rewrite N.add_0_l. now rewrite full_all by apply closed_aligned.
  Qed.
End Laws.

(** ** the digests of the standards *)
Definition standard_of (a : alg) : option (list N -> list N) :=
  match a with
  | HAS_160 => Some Has160.has160
  | MD4 => Some Md4.md4
  | MD5 => Some Md5.md5
  | RIPEMD_128 => Some Ripemd.ripemd128
  | RIPEMD_160 => Some Ripemd.ripemd160
  | RIPEMD_256 => Some Ripemd.ripemd256
  | RIPEMD_320 => Some Ripemd.ripemd320
  | SHA1 => Some Sha1.sha1
  | SHA2_224 => Some Sha2.sha224
  | SHA2_256 => Some Sha2.sha256
  | SHA2_384 => Some Sha2.sha384
  | SHA2_512 => Some Sha2.sha512
  | SHA2_512_224 => Some Sha2.sha512_224
  | SHA2_512_256 => Some Sha2.sha512_256
  | SM3 => Some Sm3.sm3
  | Tiger1_128 | Tiger1_160 | Tiger1_192 => Some Tiger.tiger
  | Tiger2_128 | Tiger2_160 | Tiger2_192 => Some Tiger.tiger2
  | Whirlpool => Some Whirlpool.whirlpool
  | _ => None
  end.

Theorem standards a S h m : scheme_of a = Some S -> standard_of a = Some h -> (8 * N.of_nat (length m) < 2 ^ s_width S)%N ->
  s_shown S (m ++ closed S (length m) (N.of_nat (length m))) = h m.
Proof.
  intros HS Hh Hl. unfold closed. rewrite N.mod_small by exact Hl.
  destruct a; try discriminate HS; injection HS as <-; injection Hh as <-; reflexivity.
Qed.
