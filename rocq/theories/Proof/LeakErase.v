(** Without the record of indices and branches, the functions of Model/Leak/ are those of Model/. *)
From Coq Require Import List NArith ZArith Arith Bool.
From Verif.Base Require Import Res CWord.
From Verif.Base Require Leak.
From Verif.Spec Require Import Client.
From Verif.Model Require Import Buffer Stream Counter Call Api Library.
From Verif.Model Require BlakeMix Blake1 Blake2 Crc32 Fnv Has160 Keccak Md2 Md4 Md5 Ripemd Sha1 Sha2 SipHash Sm3 Tiger Whirlpool.
From Verif.Model.Leak Require LkBuffer LkStream LkCall LkBlakeMix LkBlake1 LkBlake2 LkCrc32 LkFnv LkHas160 LkKeccak LkMd2 LkMd4
  LkMd5 LkRipemd LkSha1 LkSha2 LkSipHash LkSm3 LkTiger LkWhirlpool.
From Verif.Model Require LeakLibrary.
Import ListNotations.

Definition er {A} (x : Leak.res A) (y : res A) : Prop := snd x = y.

Lemma er_ok {A} (a : A) : er (Leak.Ok a) (Ok a).
Proof. reflexivity. Qed.
Lemma er_throw {A} e : @er A (Leak.Throw e) (Throw e).
Proof. reflexivity. Qed.
Lemma er_ub {A} e : @er A (Leak.Ub e) (Ub e).
Proof. reflexivity. Qed.
Lemma er_tell {A} e (x : Leak.res A) y : er x y -> er (Leak.tell e x) y.
Proof. exact (fun H => H). Qed.
Lemma er_bind {A B} (r : Leak.res A) r' (k : A -> Leak.res B) k' : er r r' -> (forall a, er (k a) (k' a)) -> er (Leak.bind r k) (bind r' k').
Proof. intros H K. unfold er, Leak.bind in *. cbn [snd]. rewrite H. apply bind_ext. exact K. Qed.
Lemma er_for {S} (b : nat -> S -> Leak.res S) b' : (forall i s, er (b i s) (b' i s)) -> forall n i s, er (Leak.for_ i n b s) (for_ i n b' s).
Proof. intros H n. induction n as [|n IH]; intros i s; cbn [Leak.for_ for_]; apply er_tell; [apply er_ok|]. apply er_bind; auto. Qed.
Lemma er_fold {A S} (f : A -> S -> Leak.res S) f' : (forall a s, er (f a s) (f' a s)) -> forall l s, er (Leak.foldM f l s) (foldM f' l s).
Proof. intros H l. induction l as [|x l IH]; intros s; cbn [Leak.foldM foldM]; apply er_tell; [apply er_ok|]. apply er_bind; auto. Qed.
Lemma er_map {A B} (f : A -> Leak.res B) f' : (forall a, er (f a) (f' a)) -> forall l, er (Leak.mapM f l) (mapM f' l).
Proof. intros H l. induction l as [|x l IH]; cbn [Leak.mapM mapM]; [apply er_ok|]. apply er_bind; [auto|]. intros. apply er_bind; [auto|]. intros. apply er_ok. Qed.
Lemma er_get {A} (l : list A) i : er (Leak.aget l i) (aget l i).
Proof. reflexivity. Qed.
Lemma er_back {A} (l : list A) i k : er (Leak.aget_back l i k) (aget_back l i k).
Proof. reflexivity. Qed.
Lemma er_set {A} (l : list A) i v : er (Leak.aset l i v) (aset l i v).
Proof. reflexivity. Qed.
Lemma er_iget {A} (l : list (option A)) i : er (Leak.iget l i) (iget l i).
Proof. reflexivity. Qed.
Global Hint Resolve er_ok er_throw er_ub er_get er_back er_set er_iget : er.

Ltac er_step :=
  intros;
  lazymatch goal with
  | |- er (Leak.tell _ _) _ => apply er_tell
  | |- er (Leak.bind _ _) _ => apply er_bind
  | |- er (Leak.for_ _ _ _ _) _ => apply er_for
  | |- er (Leak.foldM _ _ _) _ => apply er_fold
  | |- er (Leak.mapM _ _) _ => apply er_map
  | |- er (match ?x with _ => _ end) _ => destruct x
  | |- er (let (_, _) := ?x in _) _ => destruct x
  | |- _ => solve [eauto with er]
  end.
Ltac er := repeat er_step.

(** ** buffers *)
Lemma er_check dbg n b : er (LkBuffer.buf_check dbg n b) (buf_check dbg n b).
Proof. unfold LkBuffer.buf_check, buf_check. er. Qed.
Lemma er_put v b : er (LkBuffer.buf_put v b) (buf_put v b).
Proof. unfold LkBuffer.buf_put, buf_put. er. Qed.
Global Hint Resolve er_check er_put : er.
Lemma er_fill dbg v n b : er (LkBuffer.buf_fill dbg v n b) (buf_fill dbg v n b).
Proof. unfold LkBuffer.buf_fill, buf_fill. er. Qed.
Global Hint Resolve er_fill : er.
Lemma er_push dbg d b : er (LkBuffer.buf_push_back dbg d b) (buf_push_back dbg d b).
Proof. unfold LkBuffer.buf_push_back, buf_push_back. er. Qed.
Lemma er_range dbg c d : er (LkBuffer.buf_of_range dbg c d) (buf_of_range dbg c d).
Proof. unfold LkBuffer.buf_of_range, buf_of_range. er. Qed.
Lemma er_setend k i v b : er (LkBuffer.buf_set_from_end k i v b) (buf_set_from_end k i v b).
Proof. unfold LkBuffer.buf_set_from_end, buf_set_from_end. er. Qed.
Lemma er_getend k b : er (LkBuffer.buf_get_from_end k b) (buf_get_from_end k b).
Proof. unfold LkBuffer.buf_get_from_end, buf_get_from_end. er. Qed.
Lemma er_first n d : er (LkStream.span_first n d) (span_first n d).
Proof. unfold LkStream.span_first, span_first. er. Qed.
Lemma er_sub n d : er (LkStream.span_subspan n d) (span_subspan n d).
Proof. unfold LkStream.span_subspan, span_subspan. er. Qed.
Global Hint Resolve er_push er_range er_setend er_getend er_first er_sub : er.

(** ** addData *)
Section Add.
  Context {St : Type} (B cap : nat) (dbg : bool) (impl : list N -> St -> Leak.res St) (impl' : list N -> St -> res St).
  Hypothesis H : forall d s, er (impl d s) (impl' d s).
  Lemma er_tail d b s : er (LkStream.addData_tail St B cap dbg impl d b s) (addData_tail St B cap dbg impl' d b s).
  Proof using H. unfold LkStream.addData_tail, addData_tail. cbv zeta. er. Qed.
  Hint Resolve er_tail : er.
  Lemma er_add d o : er (LkStream.addData St B cap dbg impl d o) (addData St B cap dbg impl' d o).
  Proof using H. unfold LkStream.addData, addData. cbv zeta. er. Qed.
  Lemma er_tail2 d s : er (LkBlake2.addData_tail St B dbg impl d s) (Blake2.addData_tail St B dbg impl' d s).
  Proof using H. unfold LkBlake2.addData_tail, Blake2.addData_tail. cbv zeta. er_step. er_step; er. Qed.
  Hint Resolve er_tail2 : er.
  Lemma er_rec n : forall d o, er (LkBlake2.addData_rec St B dbg impl n d o) (Blake2.addData_rec St B dbg impl' n d o).
  Proof using H.
    induction n as [|n IH]; intros d [b s]; cbn [LkBlake2.addData_rec Blake2.addData_rec]; [apply er_ub|].
    destruct d as [|x d]; [apply er_ok|]. cbv zeta. er.
  Qed.
  Lemma er_add2 d o : er (LkBlake2.addData St B dbg impl d o) (Blake2.addData St B dbg impl' d o).
  Proof using H. apply er_rec. Qed.
End Add.

(** ** blocks, padding, read-out *)
Lemma er_loop {H} B (c : list N -> H -> Leak.res H) c' d h : (forall m h, er (c m h) (c' m h)) -> er (LkStream.block_loop H B c d h) (block_loop H B c' d h).
Proof. intros K. unfold LkStream.block_loop, block_loop. er. Qed.
Lemma er_aligned B dbg d : er (LkStream.assert_aligned B dbg d) (assert_aligned B dbg d).
Proof. unfold LkStream.assert_aligned, assert_aligned. er. Qed.
Global Hint Resolve er_loop er_aligned : er.
Lemma er_bytes n m i : er (LkStream.load_bytes n m i) (load_bytes n m i).
Proof. unfold LkStream.load_bytes, load_bytes. er. Qed.
Global Hint Resolve er_bytes : er.
Lemma er_be n m i : er (LkStream.load_be n m i) (load_be n m i).
Proof. unfold LkStream.load_be, load_be. er. Qed.
Lemma er_le n m i : er (LkStream.load_le n m i) (load_le n m i).
Proof. unfold LkStream.load_le, load_le. er. Qed.
Lemma er_store n l : er (LkStream.store_array n l) (store_array n l).
Proof. unfold LkStream.store_array, store_array. er. Qed.
Lemma er_uint n l : er (LkStream.to_uint n l) (to_uint n l).
Proof. unfold LkStream.to_uint, to_uint. er. Qed.
Lemma er_std l : er (LkStream.std_hash l) (std_hash l).
Proof. apply er_uint. Qed.
Lemma er_hex x : er (LkStream.hex_digit x) (Ok (hex_digit x)).
Proof. unfold LkStream.hex_digit, hex_digit. destruct (x <? 10)%N; reflexivity. Qed.
Lemma er_then {A B} (r : Leak.res A) a (k : A -> Leak.res B) y : er r (Ok a) -> er (k a) y -> er (Leak.bind r k) y.
Proof. intros H K. unfold er, Leak.bind in *. cbn [snd]. now rewrite H. Qed.
Lemma er_string l : er (LkStream.to_string l) (to_string l).
Proof.
  unfold LkStream.to_string, to_string. destruct l as [|x l]; [apply er_ub|]. generalize (x :: l) as d. clear x l.
  set (f := fun c s => _). enough (K : forall d s, er (Leak.foldM f d s) (Ok (s ++ flat_map (fun c => [hex_digit (ror 8 c 4); hex_digit (N.land c 15)]) d))) by (intros d; apply (K d [])).
  induction d as [|c d IH]; intros s; cbn [Leak.foldM flat_map]; apply er_tell; [rewrite app_nil_r; apply er_ok|].
  rewrite app_assoc. eapply er_then; [|apply IH]. unfold f. eapply er_then; [apply er_hex|]. eapply er_then; [apply er_hex|]. apply er_ok.
Qed.
Global Hint Resolve er_be er_le er_store er_uint er_std er_string : er.

Lemma er_md_impl {H} B dbg (c : list N -> H -> Leak.res H) c' d s : (forall m h, er (c m h) (c' m h)) -> er (LkStream.md_impl B dbg c d s) (md_impl B dbg c' d s).
Proof. intros K. unfold LkStream.md_impl, md_impl. cbv zeta. er. Qed.
Lemma er_md128_impl {H} B dbg (c : list N -> H -> Leak.res H) c' d s : (forall m h, er (c m h) (c' m h)) -> er (LkStream.md128_impl B dbg c d s) (md128_impl B dbg c' d s).
Proof. intros K. unfold LkStream.md128_impl, md128_impl. cbv zeta. er. Qed.
Lemma er_len_be n b : er (LkStream.write_len_be n b) (write_len_be n b).
Proof. unfold LkStream.write_len_be, write_len_be. cbv zeta. er. Qed.
Lemma er_len_le n b : er (LkStream.write_len_le n b) (write_len_le n b).
Proof. unfold LkStream.write_len_le, write_len_le. cbv zeta. er. Qed.
Lemma er_len_128 n b : er (LkStream.write_len_be128 n b) (write_len_be128 n b).
Proof. unfold LkStream.write_len_be128, write_len_be128. er. Qed.
Global Hint Resolve er_len_be er_len_le er_len_128 : er.
Lemma er_md_fin {H} B dbg p w w' (i : list N -> MD H -> Leak.res (MD H)) i' o : (forall n b, er (w n b) (w' n b)) -> (forall d s, er (i d s) (i' d s)) ->
  er (LkStream.md_finalize B dbg p w i o) (md_finalize B dbg p w' i' o).
Proof. intros K1 K2. unfold LkStream.md_finalize, md_finalize. cbv zeta. er. Qed.
Lemma er_md128_fin {H} B r dbg (i : list N -> MD128 H -> Leak.res (MD128 H)) i' o : (forall d s, er (i d s) (i' d s)) ->
  er (LkStream.md128_finalize B r dbg i o) (md128_finalize B r dbg i' o).
Proof. intros K. unfold LkStream.md128_finalize, md128_finalize. cbv zeta. er. Qed.

Lemma er_call f f' g r : (forall l, er (f l) (f' l)) -> er (LkCall.call_regs f g r) (call_regs f' g r).
Proof. intros K. unfold LkCall.call_regs, call_regs. er. Qed.
Global Hint Resolve er_call : er.

(** ** the classes *)
Lemma er_mix w a b c d x y l : er (LkBlakeMix.blakeMix w a b c d x y l) (BlakeMix.blakeMix w a b c d x y l).
Proof. unfold LkBlakeMix.blakeMix, BlakeMix.blakeMix. cbv zeta. er. Qed.
Global Hint Resolve er_mix : er.
Ltac go f g := unfold f, g; cbv zeta; er.

Section Blake.
  Context (w : N) (nb : nat) (r1 r2 r3 r4 : N) (tab : list N) (F : Type) (calls : list (call F)) (K : Counter) (narrow lastbit dbg : bool).
  Lemma er_b1_call m c v : er (LkBlake1.exec_call w nb r1 r2 r3 r4 tab F m c v) (Blake1.exec_call w nb r1 r2 r3 r4 tab F m c v).
  Proof. go @LkBlake1.exec_call @Blake1.exec_call. Qed.
  Hint Resolve er_b1_call : er.
  Lemma er_b1_compress n m s : er (LkBlake1.compress w nb r1 r2 r3 r4 tab F calls K narrow n m s) (Blake1.compress w nb r1 r2 r3 r4 tab F calls K narrow n m s).
  Proof. unfold LkBlake1.compress, Blake1.compress. destruct s as [c h]. cbv zeta. change (LkBlake1.nonPaddingBits nb narrow n) with (Blake1.nonPaddingBits nb narrow n). er. Qed.
  Hint Resolve er_b1_compress : er.
  Lemma er_b1_impl n d s : er (LkBlake1.impl w nb r1 r2 r3 r4 tab F calls K narrow dbg n d s) (Blake1.impl w nb r1 r2 r3 r4 tab F calls K narrow dbg n d s).
  Proof. go @LkBlake1.impl @Blake1.impl. Qed.
  Lemma er_b1_last b : er (LkBlake1.set_lastbit nb lastbit b) (Blake1.set_lastbit nb lastbit b).
  Proof. go @LkBlake1.set_lastbit @Blake1.set_lastbit. Qed.
  Lemma er_b1_len l h b : er (LkBlake1.write_len nb l h b) (Blake1.write_len nb l h b).
  Proof. go @LkBlake1.write_len @Blake1.write_len. Qed.
  Hint Resolve er_b1_impl er_b1_last er_b1_len : er.
  Lemma er_b1_fin o : er (LkBlake1.finalize w nb r1 r2 r3 r4 tab F calls K narrow lastbit dbg o) (Blake1.finalize w nb r1 r2 r3 r4 tab F calls K narrow lastbit dbg o).
  Proof. go @LkBlake1.finalize @Blake1.finalize. Qed.
  Lemma er_b1_arr a n s : er (LkBlake1.toArray nb K a n s) (Blake1.toArray nb K a n s).
  Proof. apply er_store. Qed.
  Lemma er_b2_call m c v : er (LkBlake2.exec_call w nb r1 r2 r3 r4 F m c v) (Blake2.exec_call w nb r1 r2 r3 r4 F m c v).
  Proof. go @LkBlake2.exec_call @Blake2.exec_call. Qed.
  Hint Resolve er_b2_call : er.
  Lemma er_b2_compress f n m s : er (LkBlake2.compress w nb r1 r2 r3 r4 tab F calls K f n m s) (Blake2.compress w nb r1 r2 r3 r4 tab F calls K f n m s).
  Proof. unfold LkBlake2.compress, Blake2.compress. destruct s as [c h]. cbv zeta. er. Qed.
  Hint Resolve er_b2_compress : er.
  Lemma er_b2_impl f n d s : er (LkBlake2.impl w nb r1 r2 r3 r4 tab F calls K dbg f n d s) (Blake2.impl w nb r1 r2 r3 r4 tab F calls K dbg f n d s).
  Proof. go @LkBlake2.impl @Blake2.impl. Qed.
  Hint Resolve er_b2_impl : er.
  Lemma er_b2_fin o : er (LkBlake2.finalize w nb r1 r2 r3 r4 tab F calls K dbg o) (Blake2.finalize w nb r1 r2 r3 r4 tab F calls K dbg o).
  Proof. go @LkBlake2.finalize @Blake2.finalize. Qed.
  Lemma er_b2_arr a s : er (LkBlake2.toArray nb K a s) (Blake2.toArray nb K a s).
  Proof. apply er_store. Qed.
End Blake.

Lemma er_lut k i : er (LkCrc32.lut k i) (Crc32.lut k i).
Proof. go LkCrc32.lut Crc32.lut. Qed.
Global Hint Resolve er_lut : er.
Lemma er_crc_block m h : er (LkCrc32.block m h) (Crc32.block m h).
Proof. go LkCrc32.block Crc32.block. Qed.
Lemma er_crc_byte d n h : er (LkCrc32.byte d n h) (Crc32.byte d n h).
Proof. go LkCrc32.byte Crc32.byte. Qed.
Global Hint Resolve er_crc_block er_crc_byte : er.
Lemma er_crc_add d h : er (LkCrc32.addDataImpl d h) (Crc32.addDataImpl d h).
Proof. go LkCrc32.addDataImpl Crc32.addDataImpl. Qed.

Lemma er_fnv size v d h : er (LkFnv.addDataImpl size v d h) (Fnv.addDataImpl size v d h).
Proof.
  unfold LkFnv.addDataImpl, Fnv.addDataImpl. revert h. induction d as [|b d IH]; intros h; cbn [Leak.foldM fold_left]; apply er_tell; [apply er_ok|].
  eapply er_then; [apply er_ok|]. apply IH.
Qed.

Lemma er_has_look x i : er (LkHas160.look x i) (Has160.look x i).
Proof. go LkHas160.look Has160.look. Qed.
Global Hint Resolve er_has_look : er.
Lemma er_has_fill m : er (LkHas160.fill_table m) (Has160.fill_table m).
Proof. go LkHas160.fill_table Has160.fill_table. Qed.
Lemma er_has_xor x i : er (LkHas160.xor4 x i) (Has160.xor4 x i).
Proof. go LkHas160.xor4 Has160.xor4. Qed.
Global Hint Resolve er_has_fill er_has_xor : er.
Lemma er_has_extend r x : er (LkHas160.extendTable r x) (Has160.extendTable r x).
Proof. go LkHas160.extendTable Has160.extendTable. Qed.
Lemma er_has_round x F k r s t p : er (LkHas160.round x F k r s t p) (Has160.round x F k r s t p).
Proof. go LkHas160.round Has160.round. Qed.
Global Hint Resolve er_has_extend er_has_round : er.
Lemma er_has_call c s : er (LkHas160.exec_call c s) (Has160.exec_call c s).
Proof. go LkHas160.exec_call Has160.exec_call. Qed.
Global Hint Resolve er_has_call : er.
Lemma er_has m h : er (LkHas160.compress m h) (Has160.compress m h).
Proof. go LkHas160.compress Has160.compress. Qed.

Lemma er_md2_subst i : er (LkMd2.subst i) (Md2.subst i).
Proof. go LkMd2.subst Md2.subst. Qed.
Global Hint Resolve er_md2_subst : er.
Lemma er_md2_checksum m s : er (LkMd2.checksum_loop m s) (Md2.checksum_loop m s).
Proof. go LkMd2.checksum_loop Md2.checksum_loop. Qed.
Lemma er_md2_copy m s : er (LkMd2.copy_loop m s) (Md2.copy_loop m s).
Proof. go LkMd2.copy_loop Md2.copy_loop. Qed.
Lemma er_md2_round s : er (LkMd2.round_loop s) (Md2.round_loop s).
Proof. go LkMd2.round_loop Md2.round_loop. Qed.
Global Hint Resolve er_md2_checksum er_md2_copy er_md2_round : er.
Lemma er_md2_compress m s : er (LkMd2.compress m s) (Md2.compress m s).
Proof.
  unfold LkMd2.compress, Md2.compress. apply er_bind; [apply er_md2_checksum|]. intros. apply er_bind; [apply er_md2_copy|]. intros.
  apply er_bind; [apply er_md2_round|]. intros. apply er_ok.
Qed.
Global Hint Resolve er_md2_compress : er.
Lemma er_md2_impl d s : er (LkMd2.addDataImpl d s) (Md2.addDataImpl d s).
Proof. go LkMd2.addDataImpl Md2.addDataImpl. Qed.
Global Hint Resolve er_md2_impl : er.
Lemma er_md2_fin dbg o : er (LkMd2.finalize dbg o) (Md2.finalize dbg o).
Proof. go LkMd2.finalize Md2.finalize. Qed.
Lemma er_md2_arr s : er (LkMd2.toArray s) (Md2.toArray s).
Proof. go LkMd2.toArray Md2.toArray. Qed.

Lemma er_md4_round1 m k s p : er (LkMd4.round1 m k s p) (Md4.round1 m k s p).
Proof. go LkMd4.round1 Md4.round1. Qed.
Lemma er_md4_round23 m F K k s p : er (LkMd4.round23 m F K k s p) (Md4.round23 m F K k s p).
Proof. go LkMd4.round23 Md4.round23. Qed.
Global Hint Resolve er_md4_round1 er_md4_round23 : er.
Lemma er_md4_call m c r : er (LkMd4.exec_call m c r) (Md4.exec_call m c r).
Proof. go LkMd4.exec_call Md4.exec_call. Qed.
Global Hint Resolve er_md4_call : er.
Lemma er_md4 m h : er (LkMd4.compress m h) (Md4.compress m h).
Proof. go LkMd4.compress Md4.compress. Qed.

Lemma er_md5_func n : er (LkMd5.func n) (Md5.func n).
Proof. go LkMd5.func Md5.func. Qed.
Lemma er_md5_round m F k s t p : er (LkMd5.round m F k s t p) (Md5.round m F k s t p).
Proof. go LkMd5.round Md5.round. Qed.
Global Hint Resolve er_md5_func er_md5_round : er.
Lemma er_md5_call m c r : er (LkMd5.exec_call m c r) (Md5.exec_call m c r).
Proof. go LkMd5.exec_call Md5.exec_call. Qed.
Global Hint Resolve er_md5_call : er.
Lemma er_md5 m h : er (LkMd5.compress m h) (Md5.compress m h).
Proof. go LkMd5.compress Md5.compress. Qed.

Lemma er_rmd_func n : er (LkRipemd.func n) (Ripemd.func n).
Proof. go LkRipemd.func Ripemd.func. Qed.
Lemma er_rmd_line4 m f k r s p : er (LkRipemd.line4 m f k r s p) (Ripemd.line4 m f k r s p).
Proof. go LkRipemd.line4 Ripemd.line4. Qed.
Lemma er_rmd_line5 m f k r s p : er (LkRipemd.line5 m f k r s p) (Ripemd.line5 m f k r s p).
Proof. go LkRipemd.line5 Ripemd.line5. Qed.
Lemma er_rmd_swap p : er (LkRipemd.swap p) (Ripemd.swap p).
Proof. go LkRipemd.swap Ripemd.swap. Qed.
Global Hint Resolve er_rmd_func er_rmd_line4 er_rmd_line5 er_rmd_swap : er.
Lemma er_rmd_line ln ln' a g r : (forall f k n s p, er (ln f k n s p) (ln' f k n s p)) -> er (LkRipemd.line ln a g r) (Ripemd.line ln' a g r).
Proof. intros H. go LkRipemd.line Ripemd.line. Qed.
Global Hint Resolve er_rmd_line : er.
Lemma er_rmd_exec128 m c r : er (LkRipemd.exec128 m c r) (Ripemd.exec128 m c r).
Proof. go LkRipemd.exec128 Ripemd.exec128. Qed.
Lemma er_rmd_exec160 m c r : er (LkRipemd.exec160 m c r) (Ripemd.exec160 m c r).
Proof. go LkRipemd.exec160 Ripemd.exec160. Qed.
Lemma er_rmd_exec256 m c r : er (LkRipemd.exec256 m c r) (Ripemd.exec256 m c r).
Proof. go LkRipemd.exec256 Ripemd.exec256. Qed.
Lemma er_rmd_exec320 m c r : er (LkRipemd.exec320 m c r) (Ripemd.exec320 m c r).
Proof. go LkRipemd.exec320 Ripemd.exec320. Qed.
Lemma er_rmd_mix st r j k l : er (LkRipemd.mix st r j k l) (Ripemd.mix st r j k l).
Proof. go LkRipemd.mix Ripemd.mix. Qed.
Lemma er_rmd_add n r st : er (LkRipemd.add_all n r st) (Ripemd.add_all n r st).
Proof. go LkRipemd.add_all Ripemd.add_all. Qed.
Global Hint Resolve er_rmd_exec128 er_rmd_exec160 er_rmd_exec256 er_rmd_exec320 er_rmd_mix er_rmd_add : er.
Lemma er_rmd128 m h : er (LkRipemd.compress128 m h) (Ripemd.compress128 m h).
Proof. go LkRipemd.compress128 Ripemd.compress128. Qed.
Lemma er_rmd160 m h : er (LkRipemd.compress160 m h) (Ripemd.compress160 m h).
Proof. go LkRipemd.compress160 Ripemd.compress160. Qed.
Lemma er_rmd256 m h : er (LkRipemd.compress256 m h) (Ripemd.compress256 m h).
Proof. go LkRipemd.compress256 Ripemd.compress256. Qed.
Lemma er_rmd320 m h : er (LkRipemd.compress320 m h) (Ripemd.compress320 m h).
Proof. go LkRipemd.compress320 Ripemd.compress320. Qed.

Lemma er_sha1_std t w : er (LkSha1.w_std t w) (Sha1.w_std t w).
Proof. go LkSha1.w_std Sha1.w_std. Qed.
Lemma er_sha1_alt t w : er (LkSha1.w_alt t w) (Sha1.w_alt t w).
Proof. go LkSha1.w_alt Sha1.w_alt. Qed.
Lemma er_sha1_load m t w : er (LkSha1.w_load m t w) (Sha1.w_load m t w).
Proof. go LkSha1.w_load Sha1.w_load. Qed.
Global Hint Resolve er_sha1_std er_sha1_alt er_sha1_load : er.
Lemma er_sha1_round W W' F K a b c d e t l : (forall t w, er (W t w) (W' t w)) -> er (LkSha1.round W F K a b c d e t l) (Sha1.round W' F K a b c d e t l).
Proof. intros H. go LkSha1.round Sha1.round. Qed.
Global Hint Resolve er_sha1_round : er.
Lemma er_sha1_call m c l : er (LkSha1.exec_call m c l) (Sha1.exec_call m c l).
Proof. go LkSha1.exec_call Sha1.exec_call. Qed.
Global Hint Resolve er_sha1_call : er.
Lemma er_sha1 m h : er (LkSha1.compress m h) (Sha1.compress m h).
Proof. go LkSha1.compress Sha1.compress. Qed.

Section Sha2.
  Context (w : N) (nb rounds : nat) (s0 s1 b0 b1 : N -> N) (tab : list N).
  Lemma er_sha2_fill m : er (LkSha2.fill_w w nb rounds s0 s1 m) (Sha2.fill_w w nb rounds s0 s1 m).
  Proof. go LkSha2.fill_w Sha2.fill_w. Qed.
  Lemma er_sha2_round wt a b c d e f g h t r : er (LkSha2.round w b0 b1 tab wt a b c d e f g h t r) (Sha2.round w b0 b1 tab wt a b c d e f g h t r).
  Proof. go LkSha2.round Sha2.round. Qed.
  Hint Resolve er_sha2_fill er_sha2_round : er.
  Lemma er_sha2_eight wt t r : er (LkSha2.eight w b0 b1 tab wt t r) (Sha2.eight w b0 b1 tab wt t r).
  Proof. go LkSha2.eight Sha2.eight. Qed.
  Hint Resolve er_sha2_eight : er.
  Lemma er_sha2 m h : er (LkSha2.compress w nb rounds s0 s1 b0 b1 tab m h) (Sha2.compress w nb rounds s0 s1 b0 b1 tab m h).
  Proof. go LkSha2.compress Sha2.compress. Qed.
End Sha2.
Lemma er_sha2_arr224 h : er (LkSha2.toArray_512_224 h) (Sha2.toArray_512_224 h).
Proof. go LkSha2.toArray_512_224 Sha2.toArray_512_224. Qed.

Lemma er_kc_st l y x : er (LkKeccak.st l y x) (Keccak.st l y x).
Proof. apply er_get. Qed.
Lemma er_kc_set l y x v : er (LkKeccak.st_set l y x v) (Keccak.st_set l y x v).
Proof. apply er_set. Qed.
Global Hint Resolve er_kc_st er_kc_set : er.
Lemma er_kc_column l x : er (LkKeccak.column l x) (Keccak.column l x).
Proof. go LkKeccak.column Keccak.column. Qed.
Global Hint Resolve er_kc_column : er.
Lemma er_kc_theta l : er (LkKeccak.theta l) (Keccak.theta l).
Proof. go LkKeccak.theta Keccak.theta. Qed.
Lemma er_kc_rho l : er (LkKeccak.rhoPi_tmp l) (Keccak.rhoPi_tmp l).
Proof. go LkKeccak.rhoPi_tmp Keccak.rhoPi_tmp. Qed.
Lemma er_kc_chi t l : er (LkKeccak.chi t l) (Keccak.chi t l).
Proof. unfold LkKeccak.chi, Keccak.chi. apply er_for. intros. apply er_fold. intros [[u v] w] l'. er. Qed.
Lemma er_kc_iota i l : er (LkKeccak.iota i l) (Keccak.iota i l).
Proof. go LkKeccak.iota Keccak.iota. Qed.
Global Hint Resolve er_kc_theta er_kc_rho er_kc_chi er_kc_iota : er.
Lemma er_kc_round i l : er (LkKeccak.roundFunction i l) (Keccak.roundFunction i l).
Proof. unfold LkKeccak.roundFunction, Keccak.roundFunction, LkKeccak.rhoPiChi, Keccak.rhoPiChi. er. Qed.
Global Hint Resolve er_kc_round : er.
Section Keccak.
  Context (R : nat) (P : N) (dbg : bool).
  Lemma er_kc_compress m l : er (LkKeccak.compress R m l) (Keccak.compress R m l).
  Proof. go LkKeccak.compress Keccak.compress. Qed.
  Hint Resolve er_kc_compress : er.
  Lemma er_kc_impl d s : er (LkKeccak.impl R dbg d s) (Keccak.impl R dbg d s).
  Proof. go LkKeccak.impl Keccak.impl. Qed.
  Hint Resolve er_kc_impl : er.
  Lemma er_kc_squish n : forall s, er (LkKeccak.squish R dbg n s) (Keccak.squish R dbg n s).
  Proof.
    induction n as [|n IH]; intros s; cbn [LkKeccak.squish Keccak.squish]; [apply er_ub|].
    change (LkKeccak.stateToVector (Keccak.k_state s)) with (Keccak.stateToVector (Keccak.k_state s)). cbv zeta. er.
  Qed.
  Hint Resolve er_kc_squish : er.
  Lemma er_kc_fin o : er (LkKeccak.finalize R P dbg o) (Keccak.finalize R P dbg o).
  Proof. go LkKeccak.finalize Keccak.finalize. Qed.
End Keccak.

Lemma er_sip_rounds n s : er (LkSipHash.sipRounds n s) (SipHash.sipRounds n s).
Proof. go LkSipHash.sipRounds SipHash.sipRounds. Qed.
Global Hint Resolve er_sip_rounds : er.
Lemma er_sip_compress C m s : er (LkSipHash.compress C m s) (SipHash.compress C m s).
Proof. go LkSipHash.compress SipHash.compress. Qed.
Global Hint Resolve er_sip_compress : er.
Lemma er_sip_impl C dbg d s : er (LkSipHash.addDataImpl C dbg d s) (SipHash.addDataImpl C dbg d s).
Proof. go LkSipHash.addDataImpl SipHash.addDataImpl. Qed.
Global Hint Resolve er_sip_impl : er.
Lemma er_sip_fin C D dbg o : er (LkSipHash.finalize C D dbg o) (SipHash.finalize C D dbg o).
Proof. go LkSipHash.finalize SipHash.finalize. Qed.
Lemma er_sip_arr o : er (LkSipHash.toArray o) (SipHash.toArray o).
Proof. go LkSipHash.toArray SipHash.toArray. Qed.
Lemma er_sip_construct dbg k : er (LkSipHash.construct dbg k) (SipHash.construct dbg k).
Proof. go LkSipHash.construct SipHash.construct. Qed.

Lemma er_sm3_expand m : er (LkSm3.expand m) (Sm3.expand m).
Proof. go LkSm3.expand Sm3.expand. Qed.
Lemma er_sm3_round w FF GG k t p : er (LkSm3.round w FF GG k t p) (Sm3.round w FF GG k t p).
Proof. go LkSm3.round Sm3.round. Qed.
Global Hint Resolve er_sm3_expand er_sm3_round : er.
Lemma er_sm3_call w c r : er (LkSm3.exec_call w c r) (Sm3.exec_call w c r).
Proof. go LkSm3.exec_call Sm3.exec_call. Qed.
Global Hint Resolve er_sm3_call : er.
Lemma er_sm3 m h : er (LkSm3.compress m h) (Sm3.compress m h).
Proof. go LkSm3.compress Sm3.compress. Qed.

Lemma er_tiger_t k i : er (LkTiger.tT k i) (Tiger.tT k i).
Proof. go LkTiger.tT Tiger.tT. Qed.
Global Hint Resolve er_tiger_t : er.
Lemma er_tiger_round a b c x m : er (LkTiger.round a b c x m) (Tiger.round a b c x m).
Proof. go LkTiger.round Tiger.round. Qed.
Global Hint Resolve er_tiger_round : er.
Lemma er_tiger_pass x a b c m : er (LkTiger.pass x a b c m) (Tiger.pass x a b c m).
Proof. go LkTiger.pass Tiger.pass. Qed.
Lemma er_tiger_key x : er (LkTiger.keySchedule x) (Tiger.keySchedule x).
Proof. unfold LkTiger.keySchedule, Tiger.keySchedule. er. Qed.
Global Hint Resolve er_tiger_pass er_tiger_key : er.
Lemma er_tiger m h : er (LkTiger.compress m h) (Tiger.compress m h).
Proof. go LkTiger.compress Tiger.compress. Qed.
Lemma er_tiger_arr n h : er (LkTiger.toArray n h) (Tiger.toArray n h).
Proof. go LkTiger.toArray Tiger.toArray. Qed.

Lemma er_wp_c k i : er (LkWhirlpool.cT k i) (Whirlpool.cT k i).
Proof. go LkWhirlpool.cT Whirlpool.cT. Qed.
Global Hint Resolve er_wp_c : er.
Lemma er_wp_func x a b c d e f g h : er (LkWhirlpool.func x a b c d e f g h) (Whirlpool.func x a b c d e f g h).
Proof. go LkWhirlpool.func Whirlpool.func. Qed.
Global Hint Resolve er_wp_func : er.
Lemma er_wp_round r s : er (LkWhirlpool.round r s) (Whirlpool.round r s).
Proof. go LkWhirlpool.round Whirlpool.round. Qed.
Global Hint Resolve er_wp_round : er.
Lemma er_wp m h : er (LkWhirlpool.compress m h) (Whirlpool.compress m h).
Proof. go LkWhirlpool.compress Whirlpool.compress. Qed.

(** ** all of them *)
Definition faithful (C : HashClass) (L : LeakLibrary.Leaky (Obj C)) : Prop :=
  (forall d x, er (LeakLibrary.l_add L d x) (c_add C d x)) /\
  (forall x, er (LeakLibrary.l_finalize L x) (c_finalize C x)) /\
  (forall x, er (LeakLibrary.l_array L x) (c_array C x)).

Lemma faithful_md {H} B dbg p w w' (c : list N -> H -> Leak.res H) c' iv a a' : (forall n b, er (w n b) (w' n b)) -> (forall m h, er (c m h) (c' m h)) -> (forall h, er (a h) (a' h)) ->
  faithful (md_class B dbg p w' c' iv a') (LeakLibrary.md_leaky B dbg p w c a).
Proof.
  intros Hw Hc Ha. repeat apply conj; intros.
  - apply er_add. intros. now apply er_md_impl.
  - apply er_md_fin; [exact Hw|]. intros. now apply er_md_impl.
  - apply Ha.
Qed.
Lemma faithful_md128 {H} B r dbg (c : list N -> H -> Leak.res H) c' iv a a' : (forall m h, er (c m h) (c' m h)) -> (forall h, er (a h) (a' h)) ->
  faithful (md128_class B r dbg c' iv a') (LeakLibrary.md128_leaky B r dbg c a).
Proof.
  intros Hc Ha. repeat apply conj; intros.
  - apply er_add. intros. now apply er_md128_impl.
  - apply er_md128_fin. intros. now apply er_md128_impl.
  - apply Ha.
Qed.
Lemma faithful_blake1 w nb r1 r2 r3 r4 tab F calls K narrow lastbit dbg iv size n :
  faithful (Blake1.cls w nb r1 r2 r3 r4 tab F calls K narrow lastbit dbg iv size n) (LeakLibrary.blake1 w nb r1 r2 r3 r4 tab F calls K narrow lastbit dbg size n).
Proof. repeat apply conj; intros; [apply er_add; intros; apply er_b1_impl|apply er_b1_fin|apply er_b1_arr]. Qed.
Lemma faithful_blake2 w nb r1 r2 r3 r4 tab F calls K dbg size :
  faithful (Blake2.cls w nb r1 r2 r3 r4 tab F calls K dbg size) (LeakLibrary.blake2 w nb r1 r2 r3 r4 tab F calls K dbg size).
Proof. repeat apply conj; intros; [apply er_add2; intros; apply er_b2_impl|apply er_b2_fin|apply er_b2_arr]. Qed.
Lemma faithful_keccak R P dbg d : faithful (Keccak.cls R P dbg d) (LeakLibrary.keccak R P dbg).
Proof. repeat apply conj; intros; [apply er_add; intros; apply er_kc_impl|apply er_kc_fin|apply er_ok]. Qed.
Lemma faithful_fnv size v : faithful (Fnv.cls size v) (LeakLibrary.fnv size v).
Proof. repeat apply conj; intros; [apply er_fnv|apply er_ok|apply er_store]. Qed.
Lemma faithful_tiger V size dbg : faithful (Tiger.cls V size dbg) (LeakLibrary.tiger V size dbg).
Proof. apply faithful_md; [exact er_len_le|exact er_tiger|apply er_tiger_arr]. Qed.

Theorem faithful_all a dbg : faithful (class a dbg) (LeakLibrary.leaky a dbg).
Proof.
  destruct a.
  1-4: apply faithful_blake1.
  1-2: apply faithful_blake2.
  1: repeat apply conj; intros; [apply er_crc_add|apply er_ok|apply er_store].
  1-6: apply faithful_fnv.
  1: apply faithful_md; [exact er_len_le|exact er_has|intros; apply er_store].
  1: repeat apply conj; intros; [apply er_add; exact er_md2_impl|apply er_md2_fin|apply er_md2_arr].
  1: apply faithful_md; [exact er_len_le|exact er_md4|intros; apply er_store].
  1: apply faithful_md; [exact er_len_le|exact er_md5|intros; apply er_store].
  1: apply faithful_md; [exact er_len_le|exact er_rmd128|intros; apply er_store].
  1: apply faithful_md; [exact er_len_le|exact er_rmd160|intros; apply er_store].
  1: apply faithful_md; [exact er_len_le|exact er_rmd256|intros; apply er_store].
  1: apply faithful_md; [exact er_len_le|exact er_rmd320|intros; apply er_store].
  1: apply faithful_md; [exact er_len_be|exact er_sha1|intros; apply er_store].
  1-2: apply faithful_md; [exact er_len_be|intros; apply er_sha2|intros; apply er_store].
  1-2: apply faithful_md128; [intros; apply er_sha2|intros; apply er_store].
  1: apply faithful_md128; [intros; apply er_sha2|exact er_sha2_arr224].
  1: apply faithful_md128; [intros; apply er_sha2|intros; apply er_store].
  1-6: apply faithful_keccak.
  1: repeat apply conj; intros; [apply er_add; intros; apply er_sip_impl|apply er_sip_fin|apply er_sip_arr].
  1: apply faithful_md; [exact er_len_be|exact er_sm3|intros; apply er_store].
  1-6: apply faithful_tiger.
  apply faithful_md128; [exact er_wp|intros; apply er_store].
Qed.

Lemma er_run C L : faithful C L -> forall p s, er (LeakLibrary.run C L p s) (exec C p s).
Proof.
  intros (Ha & Hf & Hr) p. induction p as [|[i o|i j] p IH]; intros s; cbn [LeakLibrary.run exec]; [apply er_ok| |apply IH].
  apply er_bind; [|intros; apply er_bind; [apply IH|intros; apply er_ok]].
  unfold LeakLibrary.run_op, exec_op. destruct o; er.
Qed.

Theorem observed_erases a dbg p : Leak.outcome (LeakLibrary.observed a dbg p) = exec (class a dbg) p (fun _ => c_new (class a dbg)).
Proof. apply er_run, faithful_all. Qed.

(** ** == *)
Lemma er_eq_loop n : forall i l r, er (LeakLibrary.eq_loop n i l r) (eq_loop n i l r).
Proof. induction n as [|n IH]; intros i l r; cbn [LeakLibrary.eq_loop eq_loop]; apply er_tell; [apply er_ok|]. er. Qed.
