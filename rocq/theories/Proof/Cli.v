(** The command line tool. *)
From Coq Require Import String List NArith ZArith Arith Bool Lia.
From Verif.Base Require Import Res CWord.
From Verif.Spec Require Import Words Client ObjClient Log2 Sp800185 CShakeArgs Cli.
From Verif.Model Require Import Buffer Stream Api ObjApi Library Cli.
From Verif.Proof Require Import Words Api ObjApi Library.
From Verif.Model Require Keccak CShake TupleHash SipHash Tiger.
From Verif.Proof Require Blake1 Blake2 Crc32 Fnv Has160 Keccak KeccakOut Shake Md2 Md4 Md5 Ripemd Sha1 Sha2 SipHash Sm3 Tiger Whirlpool CShake TupleHash.
Import ListNotations.
Local Open Scope N_scope.

(** ** std::stoi reads decimal notation *)
Lemma digits_first f : forall n, n < 2 ^ N.of_nat f -> exists c r, digits (S f) n = c :: r /\ isdigit c = true.
Proof.
  assert (forall n, n < 10 -> isdigit (48 + n) = true) as Hd by (intros n H; unfold isdigit; apply andb_true_intro; split; apply N.leb_le; lia).
  induction f as [|f IH]; intros n H.
  - exists (48 + n), []. cbn [digits]. change (2 ^ N.of_nat 0) with 1 in H. destruct (N.ltb_spec n 10); [split; [reflexivity|now apply Hd]|lia].
  - cbn [digits]. destruct (N.ltb_spec n 10) as [L|L]; [exists (48 + n), []; split; [reflexivity|now apply Hd]|].
    destruct (IH (n / 10)) as (c & r & E & Hc).
    { rewrite Nat2N.inj_succ, N.pow_succ_r' in H. apply N.div_lt_upper_bound; lia. }
    exists c, (r ++ [48 + n mod 10]). cbn [digits] in E. rewrite E. split; [reflexivity|exact Hc].
Qed.
Lemma digits_value f : forall n acc rest, n < 2 ^ N.of_nat f ->
  leading (digits (S f) n ++ rest) acc =
  leading rest (Some (match acc with Some v => v * 10 ^ Z.of_nat (length (digits (S f) n)) | None => 0 end + Z.of_N n)%Z).
Proof.
  assert (forall n acc rest, n < 10 -> leading ([48 + n] ++ rest) acc =
    leading rest (Some (match acc with Some v => v * 10 ^ 1 | None => 0 end + Z.of_N n)%Z)) as H1.
  { intros n acc rest H. cbn [app leading]. unfold isdigit.
    destruct (N.leb_spec 48 (48 + n)); [|lia]. destruct (N.leb_spec (48 + n) 57); [|lia]. cbn [andb].
    f_equal. f_equal. replace (48 + n - 48) with n by lia. destruct acc; lia. }
  induction f as [|f IH]; intros n acc rest H.
  - change (2 ^ N.of_nat 0) with 1 in H. cbn [digits]. destruct (N.ltb_spec n 10); [|lia]. rewrite H1 by assumption. reflexivity.
  - remember (S f) as g eqn:Eg. cbn [digits]. destruct (N.ltb_spec n 10) as [L|L]; [now rewrite H1|]. subst g.
    rewrite Nat2N.inj_succ, N.pow_succ_r' in H.
    rewrite <- app_assoc, IH by (apply N.div_lt_upper_bound; lia).
    rewrite H1 by (apply N.mod_lt; lia). f_equal. f_equal. rewrite app_length. cbn [length].
    rewrite Nat2Z.inj_add, Z.pow_add_r by lia. rewrite Z.mul_add_distr_r.
    pose proof (N.div_mod n 10 ltac:(lia)) as E.
    destruct acc; lia.
Qed.
Lemma fuel_enough n : n < 2 ^ N.of_nat (N.size_nat n).
Proof. destruct n as [|p]; [reflexivity|]. cbn [N.size_nat].
  induction p as [p IH|p IH|]; cbn [Pos.size_nat]; rewrite ?Nat2N.inj_succ, ?N.pow_succ_r'; try lia.
Qed.
Lemma stoi_decimal n : stoi (decimal n) = if n <? 2 ^ 31 then Ok (Z.of_N n) else Throw OutOfRange.
Proof.
  unfold stoi, decimal. destruct (digits_first _ n (fuel_enough n)) as (c & r & E & Hc).
  pose proof (digits_value _ n None [] (fuel_enough n)) as V. rewrite app_nil_r in V. cbn [leading] in V. rewrite E in V |- *.
  unfold isdigit in Hc. apply andb_true_iff in Hc as [H1 H2]. apply N.leb_le in H1, H2.
  cbn [skip_spaces]. unfold isspace. destruct (N.eqb_spec c 32); [lia|]. destruct (N.leb_spec 9 c); [|lia]. destruct (N.leb_spec c 13); [lia|].
  cbn [orb andb]. destruct (N.eqb_spec c 45); [lia|]. destruct (N.eqb_spec c 43); [lia|]. rewrite V.
  change (2 ^ 31)%Z with 2147483648%Z. change (2 ^ 31) with 2147483648.
  destruct (N.ltb_spec n 2147483648), (Z.leb_spec (- (2147483648)) (0 + Z.of_N n)), (Z.ltb_spec (0 + Z.of_N n) 2147483648); try lia; rewrite ?Z.add_0_l; reflexivity.
Qed.

(** ** reading and printing *)
Lemma report_eq d f : Ok (Some (hex_text d ++ [32; 32] ++ f ++ [10])) = Ok (Some (stdout (report d f))).
Proof. reflexivity. Qed.
Lemma delivered_spans chunks : Forall (fun c => bytes_ok c /\ N.of_nat (length c) <= 1024 * 1024) chunks -> Forall span_ok chunks.
Proof.
  apply Forall_impl. intros c [H L]. split; [exact H|]. change (1024 * 1024) with 1048576 in L. change (2 ^ 64) with 18446744073709551616. lia.
Qed.

Section World.
  Variables (lg : N -> N) (dbg elided : bool) (w : world).

  (** any class that realizes a hash function *)
  Lemma fed_ok C hash ok_args ok_item mr ma rel : Realizes C hash ok_args ok_item mr ma rel ->
    forall items a l x, rel a l false x -> Forall ok_item items -> exists y, foldM (oc_feed C) items x = Ok y /\ rel a (l ++ items) false y.
  Proof using.
    intros HR. induction items as [|d items IH]; intros a l x Hx Hi; [exists x; now rewrite app_nil_r|].
    inversion Hi as [|? ? Hd Hi']; subst. destruct (re_feed _ _ _ _ _ _ _ HR a l x d Hx Hd) as (y & E & Hy).
    destruct (IH a (l ++ [d]) y Hy Hi') as (z & Ez & Hz). exists z. cbn [foldM]. rewrite E, bind_ok. split; [exact Ez|].
    now rewrite <- app_assoc in Hz.
  Qed.
  Lemma print_ok C hash ok_args ok_item mr ma rel a l x f : Realizes C hash ok_args ok_item mr ma rel ->
    rel a l false x -> hash a l <> [] -> print C f x = Ok (Some (stdout (report (hash a l) f))).
  Proof using.
    intros HR Hx Hne. unfold print. destruct (re_fin _ _ _ _ _ _ _ HR a l x Hx) as (y & E & Hy). rewrite E, bind_ok.
    destruct (re_vec _ _ _ _ _ _ _ HR a l y Hy) as [Ev Hb]. rewrite Ev, bind_ok, to_string_ok, bind_ok by assumption. reflexivity.
  Qed.
  Lemma parameter_ok C hash ok_args ok_item mr ma rel a : Realizes C hash ok_args ok_item mr ma rel -> ok_args a ->
    exists x, parameter elided C a = Ok x /\ rel a [] false x.
  Proof using.
    intros HR Ha. unfold parameter. destruct (re_construct _ _ _ _ _ _ _ HR a Ha) as (x & E & Hx). rewrite E, bind_ok.
    eexists. split; [reflexivity|]. destruct elided; [exact Hx|]. now apply (re_move _ _ _ _ _ _ _ HR).
  Qed.

  Lemma read_ok C hash ok_args ok_item mr ma a f chunks b : ObjCorrect C hash ok_args ok_item mr ma -> ok_args a ->
    source_of w f = Reads chunks b -> Forall ok_item chunks -> hash a chunks <> [] ->
    readNPrint elided w C a f = Ok (Some (stdout (report (hash a chunks) f))).
  Proof using.
    intros (rel & HR) Ha Es Hi Hne. unfold readNPrint.
    destruct (parameter_ok C hash ok_args ok_item mr ma rel a HR Ha) as (x & E & Hx). rewrite E, bind_ok, Es.
    destruct (fed_ok C hash ok_args ok_item mr ma rel HR chunks a [] x Hx Hi) as (y & Ey & Hy). rewrite Ey, bind_ok.
    exact (print_ok C hash ok_args ok_item mr ma rel a chunks y f HR Hy Hne).
  Qed.
  Lemma read_all_ok C hash ok_args ok_item mr ma a f chunks b : ObjCorrect C hash ok_args ok_item mr ma -> ok_args a ->
    source_of w f = Reads chunks b -> ok_item (concat chunks) -> hash a [concat chunks] <> [] ->
    readAllNPrint elided w C a f = Ok (Some (stdout (report (hash a [concat chunks]) f))).
  Proof using.
    intros (rel & HR) Ha Es Hi Hne. unfold readAllNPrint.
    destruct (parameter_ok C hash ok_args ok_item mr ma rel a HR Ha) as (x & E & Hx). rewrite E, bind_ok, Es.
    destruct (re_feed _ _ _ _ _ _ _ HR a [] x _ Hx Hi) as (y & Ey & Hy). rewrite Ey, bind_ok.
    exact (print_ok C hash ok_args ok_item mr ma rel a _ y f HR Hy Hne).
  Qed.

  (** classes without constructor arguments *)
  Lemma plain_read C hash dom f chunks b : Correct C hash dom -> source_of w f = Reads chunks b -> Forall span_ok chunks ->
    dom (concat chunks) -> hash (concat chunks) <> [] ->
    readNPrint elided w (plain_obj C) tt f = Ok (Some (stdout (report (hash (concat chunks)) f))).
  Proof using.
    intros (ab & dn & HI) Es Hc Hd Hne.
    transitivity (let! x := foldM (c_add C) chunks (c_new C) in let! x := c_finalize C x in let! d := c_array C x in
      let! s := to_string d in Ok (Some (s ++ [32; 32] ++ f ++ [10]))).
    { unfold readNPrint. rewrite Es. now destruct elided. }
    assert (bytes_ok (concat chunks)) as Hb by (apply Forall_concat; revert Hc; apply Forall_impl; intros c [H _]; exact H).
    rewrite (im_new _ _ _ _ _ HI), (foldM_absorb HI) by (assumption || constructor). rewrite bind_ok. cbn [app].
    rewrite (im_fin _ _ _ _ _ HI), bind_ok, (im_read _ _ _ _ _ HI), bind_ok, to_string_ok by (try assumption; now apply (im_bytes _ _ _ _ _ HI)).
    reflexivity.
  Qed.
  Lemma plain_nonempty a hash dom m : well_formed a -> unreadable a = false -> fnv0 a = false -> (0 < digest_size a)%nat ->
    (forall dbg, Correct (class a dbg) hash dom) -> bytes_ok m -> dom m -> hash m <> [].
  Proof using.
    clear lg dbg elided w. intros H1 H2 H3 H4 HC Hb Hd. destruct (library_known a H1 H2 H3) as (hash' & HC' & HL).
    destruct (HC true) as (ab & dn & HI). destruct (HC' true) as (ab' & dn' & HI').
    assert (forall m, bytes_ok m -> ab m = ab' m) as Hab.
    { induction m0 as [|x m0 IH] using rev_ind; intros Hm; [now rewrite <- (im_new _ _ _ _ _ HI), <- (im_new _ _ _ _ _ HI')|].
      apply Forall_app in Hm as [Hm Hx]. assert (span_ok [x]) as Hs by (split; [exact Hx|reflexivity]).
      pose proof (im_add _ _ _ _ _ HI m0 [x] Hm Hs) as E1. pose proof (im_add _ _ _ _ _ HI' m0 [x] Hm Hs) as E2.
      rewrite (IH Hm), E2 in E1. now injection E1. }
    pose proof (im_fin _ _ _ _ _ HI m Hb Hd) as F1. pose proof (im_fin _ _ _ _ _ HI' m Hb I) as F2.
    rewrite (Hab m Hb), F2 in F1. injection F1 as F1.
    pose proof (im_read _ _ _ _ _ HI m Hb Hd) as R1. pose proof (im_read _ _ _ _ _ HI' m Hb I) as R2.
    rewrite <- F1, R2 in R1. injection R1 as R1. rewrite <- R1. intros E. specialize (HL m). rewrite E in HL. cbn [length] in HL. lia.
  Qed.
  Lemma plain_ok a hash dom f m : (forall dbg, Correct (class a dbg) hash dom) -> well_formed a -> unreadable a = false -> fnv0 a = false ->
    (0 < digest_size a)%nat -> delivers (source_of w f) m -> dom m ->
    readNPrint elided w (plain_obj (class a dbg)) tt f = Ok (Some (stdout (report (hash m) f))).
  Proof using.
    intros HC H1 H2 H3 H4 (chunks & Es & <- & Hc) Hd. apply delivered_spans in Hc.
    assert (bytes_ok (concat chunks)) as Hb by (apply Forall_concat; revert Hc; apply Forall_impl; intros c [H _]; exact H).
    apply (plain_read _ hash dom f chunks false (HC dbg) Es Hc Hd). now apply (plain_nonempty a hash dom).
  Qed.
End World.

(** ** the options *)
Section Tool.
  Variables (lg : N -> N) (dbg elided : bool) (w : world).

  Lemma main_run p o rest h : getHash o = h ->
    main lg dbg elided w (p :: o :: rest) =
    match runHash lg dbg elided w h (2 + length rest) (p :: o :: rest) with
    | Ok None => Ok (mkOutput (printUsage p) 0)
    | Ok (Some text) => Ok (mkOutput text 0)
    | Throw e => Throw e
    | Ub u => Ub u
    end.
  Proof using.
    intros <-. unfold main. cbn [length Nat.leb]. unfold argument. cbn [nth]. change (2 + length rest)%nat with (S (S (length rest))).
    destruct (runHash lg dbg elided w (getHash o) (S (S (length rest))) (p :: o :: rest)) as [[t|]|e|u]; reflexivity.
  Qed.

  Definition short_tigers : list string := ["-tiger1-128"; "-tiger1-160"; "-tiger2-128"; "-tiger2-160"]%string.

  Definition file_prop (e : string * usage) : Prop :=
    match snd e with
    | File hash dom => ~ In (fst e) short_tigers -> forall p f m, delivers (source_of w f) m -> dom m ->
        main lg dbg elided w [p; codes (fst e); f] = Ok (report (hash m) f)
    | _ => True
    end.
  Lemma file_case o h a hash dom : getHash (codes o) = h ->
    (forall argv, runHash lg dbg elided w h 3 argv = readNPrint elided w (plain_obj (class a dbg)) tt (argument argv 2)) ->
    (forall dbg, Correct (class a dbg) hash dom) -> well_formed a -> unreadable a = false -> fnv0 a = false ->
    (0 < digest_size a)%nat -> file_prop (o, File hash dom).
  Proof using.
    intros Eh Er HC H1 H2 H3 H4 _ p f m Hm Hd. cbn [fst snd]. rewrite (main_run p (codes o) [f] h Eh). cbn [length Nat.add]. rewrite Er.
    unfold argument. cbn [nth]. now rewrite (plain_ok dbg elided w a hash dom f m HC H1 H2 H3 H4 Hm Hd).
  Qed.

  Ltac by_class a H :=
    refine (file_case _ _ a _ _ _ _ H _ _ _ _); [vm_compute; reflexivity|intros; reflexivity|exact I|reflexivity|reflexivity|apply Nat.ltb_lt; reflexivity].

  Lemma siphash_case : file_prop ("-siphash"%string, File (fun m => be_bytes 8 (Spec.SipHash.siphash 2 4 (repeat 0 16) m)) always).
  Proof.
    intros _ p f m (chunks & Es & <- & Hc) _. cbn [fst snd]. rewrite (main_run p (codes "-siphash") [f] H_Siphash) by (vm_compute; reflexivity).
    cbn [length Nat.add]. change (runHash lg dbg elided w H_Siphash 3 [p; codes "-siphash"; f]) with
      (readNPrint elided w (Model.SipHash.obj_class 2 4 dbg) (repeat 0 16) f).
    rewrite (read_ok elided w (Model.SipHash.obj_class 2 4 dbg) _ _ _ _ _ (repeat 0 16) f chunks false (Proof.SipHash.siphash_correct 2 4 dbg)); [reflexivity| |exact Es| |].
    - split; [reflexivity|]. apply Forall_forall. intros x Hx. apply repeat_spec in Hx. subst x. reflexivity.
    - now apply delivered_spans.
    - generalize (Spec.SipHash.siphash 2 4 (repeat 0 16) (concat chunks)). intros v E. apply (f_equal (@length N)) in E.
      rewrite be_bytes_length in E. discriminate.
  Qed.
  Lemma files : Forall file_prop documented.
  Proof.
    unfold documented. repeat apply Forall_cons.
    - by_class Blake1_224 Blake1.blake224_correct.
    - by_class Blake1_256 Blake1.blake256_correct.
    - by_class Blake1_384 Blake1.blake384_correct.
    - by_class Blake1_512 Blake1.blake512_correct.
    - by_class Blake2 Blake2.blake2b_all.
    - by_class Blake2s Blake2.blake2s_all.
    - by_class CRC_32 (fun _ : bool => Crc32.crc32_correct).
    - exact I.
    - exact I.
    - by_class FNV32_1a (fun _ : bool => Fnv.correct 4 2 (or_introl eq_refl) (le_n 2) (le_S _ _ (le_n 1))).
    - by_class FNV64_1a (fun _ : bool => Fnv.correct 8 2 (or_intror eq_refl) (le_n 2) (le_S _ _ (le_n 1))).
    - by_class HAS_160 Has160.has160_correct.
    - by_class MD2 Md2.md2_correct.
    - by_class MD4 Md4.md4_correct.
    - by_class MD5 Md5.md5_correct.
    - by_class RIPEMD_128 Ripemd.ripemd128_correct.
    - by_class RIPEMD_160 Ripemd.ripemd160_correct.
    - by_class RIPEMD_256 Ripemd.ripemd256_correct.
    - by_class RIPEMD_320 Ripemd.ripemd320_correct.
    - exact siphash_case.
    - by_class SHA1 Sha1.sha1_correct.
    - by_class SHA2_224 Sha2.sha224_correct.
    - by_class SHA2_256 Sha2.sha256_correct.
    - by_class SHA2_384 Sha2.sha384_correct.
    - by_class SHA2_512 Sha2.sha512_correct.
    - by_class SHA2_512_224 Sha2.sha512_224_correct.
    - by_class SHA2_512_256 Sha2.sha512_256_correct.
    - by_class SHA3_224 Keccak.sha3_224_correct.
    - by_class SHA3_256 Keccak.sha3_256_correct.
    - by_class SHA3_384 Keccak.sha3_384_correct.
    - by_class SHA3_512 Keccak.sha3_512_correct.
    - exact I.
    - exact I.
    - by_class SM3 Sm3.sm3_correct.
    - intros H. destruct H. cbn [fst short_tigers In]. tauto.
    - intros H. destruct H. cbn [fst short_tigers In]. tauto.
    - by_class Tiger1_192 Tiger.tiger_correct.
    - intros H. destruct H. cbn [fst short_tigers In]. tauto.
    - intros H. destruct H. cbn [fst short_tigers In]. tauto.
    - by_class Tiger2_192 Tiger.tiger2_correct.
    - exact I.
    - exact I.
    - by_class Whirlpool Whirlpool.correct.
    - constructor.
  Qed.
  Theorem file_ok o hash dom p f m : In (o, File hash dom) documented -> ~ In o short_tigers -> delivers (source_of w f) m -> dom m ->
    main lg dbg elided w [p; codes o; f] = Ok (report (hash m) f).
  Proof.
    intros Hin Ht. pose proof (proj1 (Forall_forall _ _) files _ Hin) as H. cbn [file_prop snd fst] in H. now apply H.
  Qed.

  (** *** options with a digest length *)
  Lemma sized_run p o rest h n argc run : getHash o = h -> length rest = argc ->
    (forall argv, runHash lg dbg elided w h (2 + argc) argv = sized_case (2 + argc) argv (2 + argc) (run argv)) ->
    hd [] rest = decimal n -> n < 2 ^ 31 ->
    main lg dbg elided w (p :: o :: rest) =
    match run (p :: o :: rest) (Z.of_N n) with
    | Ok None => Ok (mkOutput (printUsage p) 0)
    | Ok (Some text) => Ok (mkOutput text 0)
    | Throw e => Throw e
    | Ub u => Ub u
    end.
  Proof using.
    intros Eh El Er Ed Hn. rewrite (main_run p o rest h Eh), El, Er. unfold sized_case. rewrite Nat.eqb_refl. cbn [negb].
    replace (argument (p :: o :: rest) 2) with (decimal n) by (rewrite <- Ed; unfold argument; cbn [nth]; now destruct rest).
    rewrite stoi_decimal. destruct (N.ltb_spec n (2 ^ 31)); [reflexivity|contradiction (N.lt_irrefl n); eapply N.lt_le_trans; eassumption].
  Qed.
  Lemma nat_pos n : 0 < n -> (0 < N.to_nat n)%nat.
  Proof using. clear. lia. Qed.
  Lemma Z_nat n : Z.to_nat (Z.of_N n) = N.to_nat n.
  Proof using. clear. lia. Qed.

  Lemma shake_same R P z f : (0 <= z)%Z ->
    readNPrint elided w (shake_obj (Model.Keccak.cls R P dbg 0) (Model.Keccak.construct R)) z f =
    readNPrint elided w (plain_obj (Model.Keccak.cls R P dbg (Z.to_nat z))) tt f.
  Proof using.
    clear lg. intros Hz. unfold readNPrint, parameter. cbn [shake_obj plain_obj value_class oc_construct]. unfold Model.Keccak.construct.
    destruct (Z.ltb_spec z 0); [lia|]. rewrite !bind_ok. reflexivity.
  Qed.
  Definition sized_prop (e : string * usage) : Prop :=
    match snd e with
    | Sized hash => forall p n f m, 0 < n < 2 ^ 31 -> delivers (source_of w f) m ->
        main lg dbg elided w [p; codes (fst e); decimal n; f] = Ok (report (hash (N.to_nat n) m) f)
    | _ => True
    end.
  Lemma sizeds : Forall sized_prop documented.
  Proof.
    unfold documented. repeat apply Forall_cons; try exact I.
    - intros p n f m [Hn Hn'] Hm. cbn [fst snd].
      rewrite (sized_run p (codes "-shake-128") [decimal n; f] H_Shake_128 n 2
        (fun argv length => readNPrint elided w (shake_obj (Model.Keccak.shake128 dbg 0) (Model.Keccak.construct (1344 / 8))) length (argument argv 3)))
        by (first [exact Hn' | reflexivity | vm_compute; reflexivity]).
      unfold argument. cbn [nth]. unfold Model.Keccak.shake128. rewrite shake_same by apply N2Z.is_nonneg. rewrite Z_nat.
      change (Model.Keccak.cls (1344 / 8) 0x1F dbg (N.to_nat n)) with (class (SHAKE_128 (N.to_nat n)) dbg).
      now rewrite (plain_ok dbg elided w (SHAKE_128 (N.to_nat n)) (Spec.Keccak.shake128 (N.to_nat n)) always f m (fun d => Keccak.shake128_correct d _) I eq_refl eq_refl (nat_pos n Hn) Hm I).
    - intros p n f m [Hn Hn'] Hm. cbn [fst snd].
      rewrite (sized_run p (codes "-shake-256") [decimal n; f] H_Shake_256 n 2
        (fun argv length => readNPrint elided w (shake_obj (Model.Keccak.shake256 dbg 0) (Model.Keccak.construct (1088 / 8))) length (argument argv 3)))
        by (first [exact Hn' | reflexivity | vm_compute; reflexivity]).
      unfold argument. cbn [nth]. unfold Model.Keccak.shake256. rewrite shake_same by apply N2Z.is_nonneg. rewrite Z_nat.
      change (Model.Keccak.cls (1088 / 8) 0x1F dbg (N.to_nat n)) with (class (SHAKE_256 (N.to_nat n)) dbg).
      now rewrite (plain_ok dbg elided w (SHAKE_256 (N.to_nat n)) (Spec.Keccak.shake256 (N.to_nat n)) always f m (fun d => Keccak.shake256_correct d _) I eq_refl eq_refl (nat_pos n Hn) Hm I).
    - constructor.
  Qed.
  Theorem sized_ok o hash p n f m : In (o, Sized hash) documented -> 0 < n < 2 ^ 31 -> delivers (source_of w f) m ->
    main lg dbg elided w [p; codes o; decimal n; f] = Ok (report (hash (N.to_nat n) m) f).
  Proof.
    intros Hin. pose proof (proj1 (Forall_forall _ _) sizeds _ Hin) as H. cbn [sized_prop snd fst] in H. now apply H.
  Qed.

  (** *** cSHAKE and TupleHash *)
  Lemma cshake128_nonempty d n c m : (0 < d)%nat -> Sp800185.cshake128 d n c m <> [].
  Proof using.
    clear. intros Hd E. apply (f_equal (@length N)) in E. unfold Sp800185.cshake128, Spec.Keccak.shake128, Spec.Keccak.keccak in E.
    destruct (is_nil n && is_nil c); rewrite KeccakOut.shake_length in E by lia; cbn [length] in E; lia.
  Qed.
  Lemma cshake256_nonempty d n c m : (0 < d)%nat -> Sp800185.cshake256 d n c m <> [].
  Proof using.
    clear. intros Hd E. apply (f_equal (@length N)) in E. unfold Sp800185.cshake256, Spec.Keccak.shake256, Spec.Keccak.keccak in E.
    destruct (is_nil n && is_nil c); rewrite KeccakOut.shake_length in E by lia; cbn [length] in E; lia.
  Qed.
  Lemma short_nil : short [].
  Proof using. clear. split; [constructor|discriminate]. Qed.

  (** what "-cshake-128" does: the argument is the name *)
  Theorem cshake128_ok p n s f m : log2_accurate lg -> 0 < n < 2 ^ 31 -> short s -> delivers (source_of w f) m ->
    main lg dbg elided w [p; codes "-cshake-128"; decimal n; s; f] = Ok (report (Sp800185.cshake128 (N.to_nat n) s [] m) f).
  Proof.
    intros Hlg [Hn Hn'] Hs (chunks & Es & <- & Hc).
    rewrite (sized_run p (codes "-cshake-128") [decimal n; s; f] H_Cshake_128 n 3
      (fun argv length => readNPrint elided w (Model.CShake.cls128 lg dbg) (length, argument argv 3, []) (argument argv 4)))
      by (first [exact Hn' | reflexivity | vm_compute; reflexivity]).
    unfold argument. cbn [nth].
    rewrite (read_ok elided w (Model.CShake.cls128 lg dbg) _ _ _ _ _ (Z.of_N n, s, []) f chunks false (Proof.CShake.cshake128_correct lg dbg Hlg));
      [cbn [CShakeArgs.cshake128]; now rewrite Z_nat|split; [apply N2Z.is_nonneg|split; [exact Hs|exact short_nil]]|exact Es|now apply delivered_spans|].
    cbn [CShakeArgs.cshake128]. rewrite Z_nat. now apply cshake128_nonempty, nat_pos.
  Qed.
  Theorem cshake256_ok p n s f m : log2_accurate lg -> 0 < n < 2 ^ 31 -> short s -> delivers (source_of w f) m ->
    main lg dbg elided w [p; codes "-cshake-256"; decimal n; s; f] = Ok (report (Sp800185.cshake256 (N.to_nat n) s [] m) f).
  Proof.
    intros Hlg [Hn Hn'] Hs (chunks & Es & <- & Hc).
    rewrite (sized_run p (codes "-cshake-256") [decimal n; s; f] H_Cshake_256 n 3
      (fun argv length => readNPrint elided w (Model.CShake.cls256 lg dbg) (length, argument argv 3, []) (argument argv 4)))
      by (first [exact Hn' | reflexivity | vm_compute; reflexivity]).
    unfold argument. cbn [nth].
    rewrite (read_ok elided w (Model.CShake.cls256 lg dbg) _ _ _ _ _ (Z.of_N n, s, []) f chunks false (Proof.CShake.cshake256_correct lg dbg Hlg));
      [cbn [CShakeArgs.cshake256]; now rewrite Z_nat|split; [apply N2Z.is_nonneg|split; [exact Hs|exact short_nil]]|exact Es|now apply delivered_spans|].
    cbn [CShakeArgs.cshake256]. rewrite Z_nat. now apply cshake256_nonempty, nat_pos.
  Qed.

  Lemma in_Z n : 0 < n < 2 ^ 28 -> (0 <= Z.of_N n < 2 ^ 28)%Z.
  Proof using. clear. change (2 ^ 28)%Z with 268435456%Z. change (2 ^ 28) with 268435456. lia. Qed.
  Lemma below n : n < 2 ^ 28 -> n < 2 ^ 31.
  Proof using. clear. change (2 ^ 28) with 268435456. change (2 ^ 31) with 2147483648. lia. Qed.
  Theorem tuple128_ok p n s f m : log2_accurate lg -> 0 < n < 2 ^ 28 -> short s -> short m -> delivers (source_of w f) m ->
    main lg dbg elided w [p; codes "-tuple-hash-128"; decimal n; s; f] = Ok (report (Sp800185.tuplehash128 (N.to_nat n) s [m]) f).
  Proof.
    intros Hlg Hn Hs Hm (chunks & Es & E & Hc). subst m.
    rewrite (sized_run p (codes "-tuple-hash-128") [decimal n; s; f] H_Tuple_hash_128 n 3
      (fun argv length => readAllNPrint elided w (Model.TupleHash.cls128 lg dbg) (length, argument argv 3) (argument argv 4)))
      by (first [exact (below n (proj2 Hn)) | reflexivity | vm_compute; reflexivity]).
    unfold argument. cbn [nth].
    rewrite (read_all_ok elided w (Model.TupleHash.cls128 lg dbg) _ _ _ _ _ (Z.of_N n, s) f chunks false (Proof.TupleHash.tuplehash128_correct lg dbg Hlg));
      [cbn [CShakeArgs.tuplehash128]; now rewrite Z_nat|split; [now apply in_Z|exact Hs]|exact Es|exact Hm|].
    cbn [CShakeArgs.tuplehash128]. rewrite Z_nat. apply cshake128_nonempty, nat_pos. apply Hn.
  Qed.
  Theorem tuple256_ok p n s f m : log2_accurate lg -> 0 < n < 2 ^ 28 -> short s -> short m -> delivers (source_of w f) m ->
    main lg dbg elided w [p; codes "-tuple-hash-256"; decimal n; s; f] = Ok (report (Sp800185.tuplehash256 (N.to_nat n) s [m]) f).
  Proof.
    intros Hlg Hn Hs Hm (chunks & Es & E & Hc). subst m.
    rewrite (sized_run p (codes "-tuple-hash-256") [decimal n; s; f] H_Tuple_hash_256 n 3
      (fun argv length => readAllNPrint elided w (Model.TupleHash.cls256 lg dbg) (length, argument argv 3) (argument argv 4)))
      by (first [exact (below n (proj2 Hn)) | reflexivity | vm_compute; reflexivity]).
    unfold argument. cbn [nth].
    rewrite (read_all_ok elided w (Model.TupleHash.cls256 lg dbg) _ _ _ _ _ (Z.of_N n, s) f chunks false (Proof.TupleHash.tuplehash256_correct lg dbg Hlg));
      [cbn [CShakeArgs.tuplehash256]; now rewrite Z_nat|split; [now apply in_Z|exact Hs]|exact Es|exact Hm|].
    cbn [CShakeArgs.tuplehash256]. rewrite Z_nat. apply cshake256_nonempty, nat_pos. apply Hn.
  Qed.

  (** *** calls that fit no line *)
  Lemma unknown o : In o names \/ getHash o = H_Invalid.
  Proof using.
    clear. unfold getHash. generalize 0%nat. generalize names. induction l as [|x l IH]; intros i; [now right|]. cbn [getHash_from].
    unfold str_eqb. destruct (list_eq_dec N.eq_dec o x) as [->|]; [left; now left|].
    destruct (IH (S i)) as [H|H]; [left; now right|now right].
  Qed.
  Definition count_prop (name : list N) (e : string * usage) : Prop :=
    name = codes (fst e) /\ forall argc argv, argc <> (2 + arguments (snd e))%nat -> runHash lg dbg elided w (getHash name) argc argv = Ok None.
  Lemma count_case name e h : name = codes (fst e) -> getHash name = h ->
    (forall argc argv, (argc =? 2 + arguments (snd e))%nat = false -> runHash lg dbg elided w h argc argv = Ok None) -> count_prop name e.
  Proof using. intros E <- H. split; [exact E|]. intros argc argv Ha. apply H. now apply Nat.eqb_neq. Qed.
  Lemma counts : Forall2 count_prop names documented.
  Proof.
    unfold names, documented. cbn [map].
    repeat (apply Forall2_cons; [eapply count_case; [reflexivity|vm_compute; reflexivity|
      intros argc argv H; cbn [snd arguments Nat.add] in H; unfold runHash, plain_case, sized_case; rewrite H; reflexivity]|]).
    constructor.
  Qed.
  Theorem usage_ok p args : unusable args -> main lg dbg elided w (p :: args) = Ok (mkOutput (printUsage p) 0).
  Proof.
    destruct args as [|o rest]; [reflexivity|]. intros H. rewrite (main_run p o rest _ eq_refl).
    destruct (unknown o) as [Hin|E]; [|rewrite E; reflexivity].
    assert (exists e, In e documented /\ count_prop o e) as ((s & u) & He & Ho & Hc).
    { revert Hin. generalize counts. generalize names documented. induction 1 as [|a b la lb Hab _ IH]; [contradiction|].
      intros [->|Hin]; [exists b; split; [now left|exact Hab]|]. destruct (IH Hin) as (e & He & P). exists e. split; [now right|exact P]. }
    rewrite Hc; [reflexivity|]. specialize (H s u He (eq_sym Ho)). cbn [snd]. lia.
  Qed.

  (** *** digest lengths that are no number, or too large *)
  Lemma no_digits s acc : Forall (fun c => ~ 48 <= c <= 57) s -> leading s acc = acc.
  Proof using.
    clear. destruct 1 as [|c s Hc _]; [reflexivity|]. cbn [leading]. unfold isdigit.
    destruct (N.leb_spec 48 c), (N.leb_spec c 57); cbn [andb]; try reflexivity. lia.
  Qed.
  Lemma skip_forall (P : N -> Prop) s : Forall P s -> Forall P (skip_spaces s).
  Proof using. clear. induction 1; cbn [skip_spaces]; [constructor|]. destruct (isspace x); [assumption|now constructor]. Qed.
  Lemma stoi_no_digits s : Forall (fun c => ~ 48 <= c <= 57) s -> stoi s = Throw InvalidArgument.
  Proof using.
    clear. intros H. unfold stoi. apply skip_forall in H. destruct (skip_spaces s) as [|c r]; [reflexivity|].
    inversion H; subst. destruct (c =? 45); [now rewrite no_digits|]. destruct (c =? 43); now rewrite no_digits.
  Qed.
  Definition sized_form (e : string * usage) : Prop :=
    match snd e with
    | File _ _ => True
    | u => exists run, forall argv,
        runHash lg dbg elided w (getHash (codes (fst e))) (2 + arguments u) argv = sized_case (2 + arguments u) argv (2 + arguments u) (run argv)
    end.
  Lemma forms : Forall sized_form documented.
  Proof.
    unfold documented.
    repeat (apply Forall_cons; [first [exact I | cbn [sized_form snd fst];
      match goal with |- context [getHash ?c] => let h := eval vm_compute in (getHash c) in replace (getHash c) with h by (vm_compute; reflexivity) end;
      eexists; intros argv; reflexivity]|]).
    constructor.
  Qed.
  Theorem no_number_ok o u p s rest : In (o, u) documented -> (2 <= arguments u)%nat -> length (s :: rest) = arguments u ->
    Forall (fun c => ~ 48 <= c <= 57) s -> main lg dbg elided w (p :: codes o :: s :: rest) = Ok (mkOutput (printUsage p) 0).
  Proof.
    intros Hin Hu Hl Hs. pose proof (proj1 (Forall_forall _ _) forms _ Hin) as H. unfold sized_form in H. cbn [fst snd] in H.
    rewrite (main_run p (codes o) (s :: rest) _ eq_refl), Hl. destruct u as [h d|h|h]; [cbn [arguments] in Hu; lia| |];
      destruct H as (run & H); rewrite H; unfold sized_case; rewrite Nat.eqb_refl; cbn [negb];
      change (argument (p :: codes o :: s :: rest) 2) with s; now rewrite stoi_no_digits.
  Qed.
  Theorem too_large_ok o u p n rest : In (o, u) documented -> (2 <= arguments u)%nat -> length (decimal n :: rest) = arguments u ->
    2 ^ 31 <= n -> main lg dbg elided w (p :: codes o :: decimal n :: rest) = Throw OutOfRange.
  Proof.
    intros Hin Hu Hl Hn. pose proof (proj1 (Forall_forall _ _) forms _ Hin) as H. unfold sized_form in H. cbn [fst snd] in H.
    assert (stoi (decimal n) = Throw OutOfRange) as Es by (rewrite stoi_decimal; destruct (N.ltb_spec n (2 ^ 31)); [contradiction (N.lt_irrefl n); eapply N.lt_le_trans; eassumption|reflexivity]).
    rewrite (main_run p (codes o) (decimal n :: rest) _ eq_refl), Hl. destruct u as [h d|h|h]; [cbn [arguments] in Hu; lia| |];
      destruct H as (run & H); rewrite H; unfold sized_case; rewrite Nat.eqb_refl; cbn [negb];
      change (argument (p :: codes o :: decimal n :: rest) 2) with (decimal n); now rewrite Es.
  Qed.

  (** *** what fails *)
  Lemma plain_hash C f chunks b : source_of w f = Reads chunks b ->
    readNPrint elided w (plain_obj C) tt f = let! d := hash_chunks C chunks in let! s := to_string d in Ok (Some (s ++ [32; 32] ++ f ++ [10])).
  Proof using.
    intros Es. unfold hash_chunks.
    transitivity (let! x := foldM (c_add C) chunks (c_new C) in let! x := c_finalize C x in let! d := c_array C x in
      let! s := to_string d in Ok (Some (s ++ [32; 32] ++ f ++ [10]))); [unfold readNPrint; rewrite Es; now destruct elided|].
    destruct (foldM (c_add C) chunks (c_new C)) as [x| |]; [rewrite !bind_ok|reflexivity|reflexivity].
    destruct (c_finalize C x); reflexivity.
  Qed.
  Theorem tigers_fail o p f m : In o short_tigers -> delivers (source_of w f) m -> main lg dbg elided w [p; codes o; f] = Ub OobWrite.
  Proof.
    intros Ho (chunks & Es & _ & Hc). apply delivered_spans in Hc.
    assert (forall h v n, getHash (codes o) = h -> (n < 24)%nat ->
      (forall argv, runHash lg dbg elided w h 3 argv = readNPrint elided w (plain_obj (Model.Tiger.cls v n dbg)) tt (argument argv 2)) ->
      main lg dbg elided w [p; codes o; f] = Ub OobWrite) as G.
    { intros h v n Eh Hn Er. rewrite (main_run p (codes o) [f] h Eh). cbn [length Nat.add]. rewrite Er. unfold argument. cbn [nth].
      rewrite (plain_hash _ f chunks false Es). now rewrite (proj1 (Proof.Tiger.short_refuted v n dbg chunks [] Hn Hc)). }
    destruct Ho as [<-|[<-|[<-|[<-|[]]]]].
    - apply (G H_Tiger1_128 1%nat 16%nat); [vm_compute; reflexivity|apply Nat.ltb_lt; reflexivity|reflexivity].
    - apply (G H_Tiger1_160 1%nat 20%nat); [vm_compute; reflexivity|apply Nat.ltb_lt; reflexivity|reflexivity].
    - apply (G H_Tiger2_128 2%nat 16%nat); [vm_compute; reflexivity|apply Nat.ltb_lt; reflexivity|reflexivity].
    - apply (G H_Tiger2_160 2%nat 20%nat); [vm_compute; reflexivity|apply Nat.ltb_lt; reflexivity|reflexivity].
  Qed.

  Theorem empty_fails p f m : delivers (source_of w f) m -> main lg dbg elided w [p; codes "-shake-128"; codes "0"; f] = Ub EmptyFront.
  Proof.
    intros (chunks & Es & _ & Hc). apply delivered_spans in Hc.
    rewrite (sized_run p (codes "-shake-128") [codes "0"; f] H_Shake_128 0 2
      (fun argv length => readNPrint elided w (shake_obj (Model.Keccak.shake128 dbg 0) (Model.Keccak.construct (1344 / 8))) length (argument argv 3)))
      by (first [reflexivity | vm_compute; reflexivity]).
    unfold argument. cbn [nth]. unfold Model.Keccak.shake128. rewrite shake_same by apply N2Z.is_nonneg. rewrite Z_nat.
    change (Model.Keccak.cls (1344 / 8) 0x1F dbg (N.to_nat 0)) with (Model.Keccak.shake128 dbg 0).
    rewrite (plain_hash _ f chunks false Es). rewrite (correct_chunks _ _ _ (Keccak.shake128_correct dbg 0) chunks Hc I), bind_ok.
    assert (length (Spec.Keccak.shake128 0 (concat chunks)) = 0%nat) as El by (apply (KeccakOut.shake_length 1344 0); lia).
    apply length_zero_iff_nil in El. now rewrite El.
  Qed.
  Lemma elided_hash C a f chunks b : elided = true -> source_of w f = Reads chunks b ->
    readAllNPrint elided w C a f = let! d := ohash C a [concat chunks] in let! s := to_string d in Ok (Some (s ++ [32; 32] ++ f ++ [10])).
  Proof using.
    intros -> Es. unfold readAllNPrint, parameter, ohash. rewrite Es. destruct (oc_construct C a) as [x| |]; [rewrite !bind_ok|reflexivity|reflexivity].
    cbn [foldM]. destruct (oc_feed C (concat chunks) x) as [y| |]; [rewrite !bind_ok|reflexivity|reflexivity].
    unfold print. destruct (oc_finalize C y); reflexivity.
  Qed.
  Theorem tuple128_fails p n s f m : elided = true -> log2_accurate lg -> 2 ^ 28 <= n < 2 ^ 31 -> short s -> short m -> delivers (source_of w f) m ->
    main lg dbg elided w [p; codes "-tuple-hash-128"; decimal n; s; f] = Ub SignedOverflow.
  Proof.
    intros He Hlg [Hn Hn'] Hs Hm (chunks & Es & E & Hc). subst m.
    rewrite (sized_run p (codes "-tuple-hash-128") [decimal n; s; f] H_Tuple_hash_128 n 3
      (fun argv length => readAllNPrint elided w (Model.TupleHash.cls128 lg dbg) (length, argument argv 3) (argument argv 4)))
      by (first [exact Hn' | reflexivity | vm_compute; reflexivity]).
    unfold argument. cbn [nth]. rewrite (elided_hash _ _ f chunks false He Es).
    rewrite Proof.TupleHash.tuplehash128_too_long; [reflexivity|exact Hlg| |exact Hs|constructor; [exact Hm|constructor]].
    change (2 ^ 28)%Z with (Z.of_N (2 ^ 28)). now apply N2Z.inj_le.
  Qed.
  Theorem tuple256_fails p n s f m : elided = true -> log2_accurate lg -> 2 ^ 28 <= n < 2 ^ 31 -> short s -> short m -> delivers (source_of w f) m ->
    main lg dbg elided w [p; codes "-tuple-hash-256"; decimal n; s; f] = Ub SignedOverflow.
  Proof.
    intros He Hlg [Hn Hn'] Hs Hm (chunks & Es & E & Hc). subst m.
    rewrite (sized_run p (codes "-tuple-hash-256") [decimal n; s; f] H_Tuple_hash_256 n 3
      (fun argv length => readAllNPrint elided w (Model.TupleHash.cls256 lg dbg) (length, argument argv 3) (argument argv 4)))
      by (first [exact Hn' | reflexivity | vm_compute; reflexivity]).
    unfold argument. cbn [nth]. rewrite (elided_hash _ _ f chunks false He Es).
    rewrite Proof.TupleHash.tuplehash256_too_long; [reflexivity|exact Hlg| |exact Hs|constructor; [exact Hm|constructor]].
    change (2 ^ 28)%Z with (Z.of_N (2 ^ 28)). now apply N2Z.inj_le.
  Qed.
End Tool.

(** ** errors of opening and reading go unnoticed *)
Definition ignore (s : source) : source := match s with NotOpened => Reads [] false | Reads chunks _ => Reads chunks false end.
Definition without_errors (w : world) : world := mkWorld (fun f => ignore (file w f)) (ignore (stdin w)).
Lemma source_ignore w f : source_of (without_errors w) f = ignore (source_of w f).
Proof. unfold source_of. cbn [file stdin without_errors]. now destruct (list_eq_dec N.eq_dec f (codes "-")). Qed.
Lemma read_ignore elided w C a f : readNPrint elided (without_errors w) C a f = readNPrint elided w C a f.
Proof.
  unfold readNPrint. rewrite source_ignore. destruct (parameter elided C a) as [x| |]; [|reflexivity|reflexivity]. rewrite !bind_ok.
  now destruct (source_of w f).
Qed.
Lemma read_all_ignore elided w C a f : readAllNPrint elided (without_errors w) C a f = readAllNPrint elided w C a f.
Proof. unfold readAllNPrint. rewrite source_ignore. now destruct (source_of w f). Qed.
Lemma sized_ext argc argv n run run' : (forall z, run z = run' z) -> sized_case argc argv n run = sized_case argc argv n run'.
Proof. intros H. unfold sized_case. destruct (negb _); [reflexivity|]. destruct (stoi _) as [z|[]|]; auto. Qed.
Theorem main_ignore lg dbg elided w argv : main lg dbg elided (without_errors w) argv = main lg dbg elided w argv.
Proof.
  unfold main. destruct argv as [|p rest]; [reflexivity|]. destruct (length (p :: rest) <=? 1)%nat; [reflexivity|].
  assert (forall h argc argv, runHash lg dbg elided (without_errors w) h argc argv = runHash lg dbg elided w h argc argv) as ->; [|reflexivity].
  intros h argc argv. unfold runHash, plain_case.
  destruct h; try (destruct (negb _); [reflexivity|apply read_ignore]); try (apply sized_ext; intros z; first [apply read_ignore|apply read_all_ignore]).
  reflexivity.
Qed.

(** a file that cannot be opened *)
Lemma ignored_delivers w f : source_of w f = NotOpened -> delivers (source_of (without_errors w) f) [].
Proof. intros E. rewrite source_ignore, E. exists []. split; [reflexivity|split; [reflexivity|constructor]]. Qed.
Theorem not_opened lg dbg elided w o hash dom p f : In (o, File hash dom) documented -> ~ In o short_tigers -> source_of w f = NotOpened -> dom [] ->
  main lg dbg elided w [p; codes o; f] = Ok (report (hash []) f).
Proof. intros Hin Ht E Hd. rewrite <- main_ignore. apply (file_ok _ _ _ _ o hash dom); [exact Hin|exact Ht|now apply ignored_delivers|exact Hd]. Qed.
(** an error in the middle of a file *)
Theorem read_error lg dbg elided w o hash dom p f chunks : In (o, File hash dom) documented -> ~ In o short_tigers ->
  source_of w f = Reads chunks true -> Forall (fun c => bytes_ok c /\ N.of_nat (length c) <= 1024 * 1024) chunks -> dom (concat chunks) ->
  main lg dbg elided w [p; codes o; f] = Ok (report (hash (concat chunks)) f).
Proof.
  intros Hin Ht E Hc Hd. rewrite <- main_ignore. apply (file_ok _ _ _ _ o hash dom); [exact Hin|exact Ht| |exact Hd].
  rewrite source_ignore, E. exists chunks. auto.
Qed.
