(** cSHAKE and TupleHash objects under all allowed programs, reset() included. *)
From Coq Require Import List NArith ZArith Arith Bool Lia.
From Verif.Base Require Import Res CWord Double.
From Verif.Spec Require Import Words Client ObjClient ObjLegal Log2 Sp800185 CShakeArgs.
From Verif.Model Require Import Buffer Stream Api ObjApi.
From Verif.Model Require CShake TupleHash Keccak.
From Verif.Spec Require Keccak.
From Verif.Proof Require Import Words Streaming Blocks Double Api ObjApi Encode ObjLegal.
From Verif.Proof Require Keccak CShake TupleHash.
Import ListNotations.
Local Open Scope N_scope.
Module M := Verif.Model.CShake.
Module T := Verif.Model.TupleHash.
Module PC := Verif.Proof.CShake.
Module PT := Verif.Proof.TupleHash.
Module K := Verif.Model.Keccak.

Section Safe.
  Variables (log2 : N -> N) (dbg : bool).
  Hypothesis Hlog : log2_accurate log2.
  Variables (R : nat) (sufS sufK P : N).
  Hypothesis HR0 : (0 < R)%nat.
  Hypothesis HR : (R <= 200)%nat.
  Hypothesis HP : P = N.of_nat R.
  Variables (hashS hashK : nat -> list N -> list N).
  Variables (absS doneS absK doneK : nat -> list N -> Buffer * K.St).
  Hypothesis IS : forall d, Implements (K.cls R sufS dbg d) (hashS d) (fun _ => True) (absS d) (doneS d).
  Hypothesis IK : forall d, Implements (K.cls R sufK dbg d) (hashK d) (fun _ => True) (absK d) (doneK d).
  Hypothesis LS : forall d m, length (hashS d m) = d.
  Hypothesis LK : forall d m, length (hashK d m) = d.

  (** the object has absorbed [m], in its bare or its SHAKE part *)
  Definition U (cu : bool) (d : nat) (m : list N) (fin : bool) (o : M.Obj) : Prop :=
    bytes_ok m /\ M.m_customized o = cu /\
    if cu then M.m_keccak o = Some ((if fin then doneK else absK) d m) else M.m_shake o = Some ((if fin then doneS else absS) d m).
  Definition uhash (cu : bool) (d : nat) (m : list N) : list N := if cu then hashK d m else hashS d m.

  Lemma U_add cu d m x o : U cu d m false o -> span_ok x -> exists o', M.addData R sufS sufK dbg x o = Ok o' /\ U cu d (m ++ x) false o'.
  Proof.
    intros (Hm & Hc & Hp) Hx. assert (bytes_ok (m ++ x)) as Hmx by (apply bytes_ok_app; split; [exact Hm|apply Hx]).
    unfold M.addData, M.on_selected, U. rewrite Hc. destruct cu; cbn [negb]; rewrite Hp; cbn [M.deref]; rewrite bind_ok.
    - pose proof (im_add _ _ _ _ _ (IK d) m x Hm Hx) as E. cbn [c_add K.cls] in E. rewrite E, bind_ok. eexists. split; [reflexivity|]. auto.
    - pose proof (im_add _ _ _ _ _ (IS d) m x Hm Hx) as E. cbn [c_add K.cls] in E. rewrite E, bind_ok. eexists. split; [reflexivity|]. auto.
  Qed.
  Lemma U_fin cu d m o : U cu d m false o -> exists o', M.finalize R sufS sufK dbg o = Ok o' /\ U cu d m true o'.
  Proof.
    intros (Hm & Hc & Hp). unfold M.finalize, M.on_selected, U. rewrite Hc. destruct cu; cbn [negb]; rewrite Hp; cbn [M.deref]; rewrite bind_ok.
    - pose proof (im_fin _ _ _ _ _ (IK d) m Hm I) as E. cbn [c_finalize K.cls] in E. rewrite E, bind_ok. eexists. split; [reflexivity|]. auto.
    - pose proof (im_fin _ _ _ _ _ (IS d) m Hm I) as E. cbn [c_finalize K.cls] in E. rewrite E, bind_ok. eexists. split; [reflexivity|]. auto.
  Qed.
  Lemma U_vec cu d m o : U cu d m true o -> M.toVector o = Ok (uhash cu d m) /\ bytes_ok (uhash cu d m).
  Proof.
    intros (Hm & Hc & Hp). unfold M.toVector, uhash. rewrite Hc. destruct cu; cbn [negb]; rewrite Hp; cbn [M.deref]; rewrite bind_ok.
    - split; [exact (im_read _ _ _ _ _ (IK d) m Hm I)|now apply (im_bytes _ _ _ _ _ (IK d))].
    - split; [exact (im_read _ _ _ _ _ (IS d) m Hm I)|now apply (im_bytes _ _ _ _ _ (IS d))].
  Qed.
  Lemma U_reset cu d m b o : U cu d m b o -> exists o', M.reset sufS sufK o = Ok o' /\ U cu d [] false o'.
  Proof.
    intros (Hm & Hc & Hp). unfold M.reset, M.on_selected, U. rewrite Hc. destruct cu; cbn [negb]; rewrite Hp; cbn [M.deref]; rewrite bind_ok;
      (eexists; split; [reflexivity|]); cbn [M.m_customized M.m_keccak M.m_shake]; (split; [constructor|]); (split; [reflexivity|]); f_equal.
    - rewrite <- (im_new _ _ _ _ _ (IK d)). destruct b; [apply (im_reset_d _ _ _ _ _ (IK d) m Hm I)|apply (im_reset_a _ _ _ _ _ (IK d) m Hm)].
    - rewrite <- (im_new _ _ _ _ _ (IS d)). destruct b; [apply (im_reset_d _ _ _ _ _ (IS d) m Hm I)|apply (im_reset_a _ _ _ _ _ (IS d) m Hm)].
  Qed.
  Lemma U_copy cu d m b o : U cu d m b o -> exists o', M.copy_construct o = Ok o' /\ U cu d m b o'.
  Proof using.
    clear. intros (Hm & Hc & Hp). unfold M.copy_construct, U. rewrite Hc. destruct cu; cbn [negb]; rewrite Hp; cbn [M.deref]; rewrite bind_ok;
      (eexists; split; [reflexivity|]); auto.
  Qed.
  Lemma U_swap t cu d m b o : U cu d m b o -> U cu d m b (fst (M.swap_selected t o)).
  Proof using.
    clear. intros (Hm & Hc & Hp). unfold M.swap_selected, U. rewrite Hc. destruct cu; cbn [negb fst M.m_customized M.m_shake M.m_keccak]; auto.
  Qed.
  Lemma U_assign cu d' m' b' t d m b o : U cu d m b o -> U cu d' m' b' t -> exists o', M.copy_assign t o = Ok o' /\ U cu d m b o'.
  Proof using.
    clear. intros (Hm & Hc & Hp) (_ & _ & Hp'). unfold M.copy_assign, U. rewrite Hc. destruct cu; cbn [negb]; rewrite Hp, Hp'; cbn [M.deref]; rewrite !bind_ok;
      (eexists; split; [reflexivity|]); auto.
  Qed.

  (** ** cSHAKE *)
  Definition cmsg (a : Z * list N * list N) (r : bool) (m : list N) : list N :=
    let '(l, n, c) := a in if customized a && negb r then cshake_stream R n c m else m.
  Definition clen (a : Z * list N * list N) : nat := Z.to_nat (fst (fst a)).
  Definition cside (a : Z * list N * list N) (r : bool) (l : list (list N)) (b : bool) (o : M.Obj) : Prop :=
    ok_cargs a /\ U (customized a) (clen a) (cmsg a r (concat l)) b o.
  Definition cout (a : Z * list N * list N) (r : bool) (l : list (list N)) : list N :=
    uhash (customized a) (clen a) (cmsg a r (concat l)).

  Lemma cmsg_app a r m x : cmsg a r (m ++ x) = cmsg a r m ++ x.
  Proof using. clear. destruct a as [[l n] c]. unfold cmsg. destruct (_ && _); [|reflexivity]. unfold cshake_stream. now rewrite app_assoc. Qed.

  Lemma crel_U a m b o : PC.crel R absS doneS absK doneK a m b o -> U (customized a) (clen a) (cmsg a false m) b o.
  Proof.
    destruct a as [[l n] c]. intros (Ha & Hm & Hc & Hp). pose proof Ha as (_ & Hn & Hcc). unfold U, cmsg, clen. cbn [fst].
    rewrite Hc. unfold customized in *. destruct (is_nil n && is_nil c); cbn [negb andb]; (split; [|split; [reflexivity|exact Hp]]); [exact Hm|].
    now apply (PC.stream_bytes dbg R sufS sufK P HR0 HR HP hashS hashK absS doneS absK doneK IS IK).
  Qed.

  Lemma nonzero a : cempty a = false -> clen a <> O.
  Proof using. clear. destruct a as [[l n] c]. unfold cempty, clen. cbn [fst]. intros E. apply Z.leb_gt in E. lia. Qed.

  Theorem cshake_side : Side (M.cls log2 R sufS sufK P dbg) cempty ok_cargs span_ok may_assign cout cside.
  Proof.
    constructor; cbn [M.cls Args OObj oc_construct oc_feed oc_finalize oc_reset oc_vector oc_copy oc_move oc_assign oc_massign].
    - intros [[l n] c] Ha.
      destruct (PC.construct_ok log2 dbg Hlog R sufS sufK P HR0 HR HP _ _ absS doneS absK doneK IS IK l n c Ha) as (o & E & Ro).
      exists o. split; [exact E|]. split; [exact Ha|]. now apply crel_U.
    - intros a r l x d (Ha & Hx) Hd. unfold cside. rewrite PC.concat_snoc, cmsg_app. destruct (U_add _ _ _ d x Hx Hd) as (y & E & Hy). eauto.
    - intros a r l x (Ha & Hx). destruct (U_fin _ _ _ x Hx) as (y & E & Hy). exists y. split; [exact E|]. now split.
    - intros a r l b x (Ha & Hx). destruct (U_reset _ _ _ _ x Hx) as (y & E & Hy). exists y. split; [exact E|]. split; [exact Ha|].
      destruct a as [[l0 n] c]. unfold cmsg. cbn [concat negb]. rewrite andb_false_r. exact Hy.
    - intros a r l x (Ha & Hx). apply (U_vec _ _ _ x Hx).
    - intros a r l b x (Ha & Hx). destruct (U_copy _ _ _ _ x Hx) as (y & E & Hy). exists y. split; [exact E|]. now split.
    - intros a r l b x (Ha & Hx). split; [exact Ha|]. now apply U_swap.
    - intros a' r' l' b' x a r l b y (Ha & Hy) (Ha' & Hx) Hm. cbn [may_assign o_args] in Hm. rewrite Hm in Hx.
      destruct (U_assign _ _ _ _ x _ _ _ y Hy Hx) as (z & E & Hz). exists z. split; [exact E|]. now split.
    - intros x a r l b y (Ha & Hy). split; [exact Ha|]. now apply U_swap.
    - intros a [| |o] Ho; cbn [may_assign] in Ho; try contradiction. eauto.
    - intros a r l He E. apply (f_equal (@length N)) in E. apply (nonzero a He). revert E. unfold cout, uhash. destruct (customized a); now rewrite ?LS, ?LK.
  Qed.

  (** ** TupleHash *)
  Definition targ (a : Z * list N) : Z * list N * list N := let '(l, c) := a in (l, tuple_name, c).
  Definition tmsg (a : Z * list N) (t : list (list N)) (b : bool) : list N :=
    if b then tuple_stream (Z.to_nat (fst a)) t else flat_map encode_string t.
  Definition tside (a : Z * list N) (r : bool) (t : list (list N)) (b : bool) (o : T.Obj) : Prop :=
    ok_targs a /\ T.m_digestLength o = fst a /\ U true (Z.to_nat (fst a)) (cmsg (targ a) r (tmsg a t b)) b (T.m_cshake o).
  Definition tout (a : Z * list N) (r : bool) (t : list (list N)) : list N := hashK (Z.to_nat (fst a)) (cmsg (targ a) r (tmsg a t true)).

  Lemma T_add l d m o x : T.m_digestLength o = l -> U true d m false (T.m_cshake o) -> span_ok x ->
    exists o', T.addDataImpl R sufS sufK dbg x o = Ok o' /\ T.m_digestLength o' = l /\ U true d (m ++ x) false (T.m_cshake o').
  Proof.
    intros Hl Hu Hx. destruct (U_add _ _ _ x _ Hu Hx) as (o' & E & Ho). unfold T.addDataImpl. rewrite E, bind_ok. eexists. split; [reflexivity|]. auto.
  Qed.

  Theorem tuple_side : Side (T.cls log2 R sufS sufK P dbg) tempty ok_targs short live_assign tout tside.
  Proof.
    constructor; cbn [T.cls Args OObj oc_construct oc_feed oc_finalize oc_reset oc_vector oc_copy oc_move oc_assign oc_massign].
    - intros [l c] Ha.
      destruct (PT.construct_crel log2 dbg Hlog R sufS sufK P HR0 HR HP _ _ absS doneS absK doneK IS IK l c (PT.cargs dbg R sufS sufK P HR0 HR HP hashS hashK absS doneS absK doneK IS IK l c Ha)) as (o & E & Lo & Ro & _).
      exists o. split; [exact E|]. split; [exact Ha|]. split; [exact Lo|]. exact (crel_U _ _ _ _ Ro).
    - intros a r t x d (Ha & Hl & Hx) Hd. unfold T.nextData. rewrite (PT.mul8 dbg R sufS sufK P HR0 HR HP hashS hashK absS doneS absK doneK IS IK d Hd), (leftEncode_ok log2 dbg Hlog _ (proj2 Hd)), bind_ok, canon_span.
      pose proof (left_encode_length _ (max_2040 _ (proj2 Hd))) as LL. pose proof (left_encode_bytes _ (max_2040 _ (proj2 Hd))) as LB.
      destruct (T_add _ _ _ x (left_encode (bit_length d)) Hl Hx) as (o1 & E1 & L1 & R1); [apply PC.small_span; [exact LB|lia]|].
      rewrite E1, bind_ok. destruct (T_add _ _ _ o1 d L1 R1 (PC.short_span d Hd)) as (o2 & E2 & L2 & R2).
      exists o2. split; [exact E2|]. split; [exact Ha|]. split; [exact L2|]. unfold tmsg in *. rewrite flat_map_app. cbn [flat_map].
      rewrite app_nil_r, cmsg_app. unfold encode_string at 2. rewrite app_assoc. exact R2.
    - intros a r t x (Ha & Hl & Hx). unfold T.finalize. rewrite Hl. destruct a as [l c]. cbn [fst] in *.
      destruct (PT.bits_ok dbg R sufS sufK P HR0 HR HP hashS hashK absS doneS absK doneK IS IK l (proj1 Ha)) as (E1 & E2 & E3). rewrite E1, bind_ok, E2, (rightEncode_ok log2 dbg Hlog _ E3), bind_ok, canon_span.
      set (v := 8 * N.of_nat (Z.to_nat l)) in *.
      assert (length (right_encode v) <= 256)%nat as LL.
      { destruct (byte_count_spec v (max_2040 _ E3)) as (B & _). unfold right_encode. rewrite app_length, be_bytes_length. cbn [length]. lia. }
      destruct (T_add _ _ _ x (right_encode v) Hl Hx) as (o1 & F1 & L1 & R1).
      { apply PC.small_span; [apply right_encode_bytes, max_2040, E3|exact LL]. }
      rewrite F1, bind_ok. destruct (U_fin _ _ _ _ R1) as (o2 & F2 & R2). rewrite F2, bind_ok.
      eexists. split; [reflexivity|]. split; [exact Ha|]. split; [exact L1|]. cbn [T.m_cshake fst]. rewrite <- cmsg_app in R2. exact R2.
    - intros a r t b x (Ha & Hl & Hx). destruct (U_reset _ _ _ _ _ Hx) as (y & E & Hy). unfold T.reset. rewrite E, bind_ok.
      eexists. split; [reflexivity|]. split; [exact Ha|]. split; [exact Hl|]. destruct a as [l c]. unfold cmsg. cbn [targ negb T.m_cshake]. rewrite andb_false_r. exact Hy.
    - intros a r t x (Ha & Hl & Hx). apply (U_vec _ _ _ _ Hx).
    - intros a r t b x (Ha & Hl & Hx). destruct (U_copy _ _ _ _ _ Hx) as (y & E & Hy). unfold T.copy_construct. rewrite E, bind_ok.
      eexists. split; [reflexivity|]. split; [exact Ha|]. split; [exact Hl|exact Hy].
    - intros a r t b x (Ha & Hl & Hx). unfold T.move_construct, M.move_construct.
      pose proof (U_swap (M.mkObj false None None) _ _ _ _ _ Hx) as Hy. destruct (M.swap_selected _ _) as [y y'].
      split; [exact Ha|]. split; [exact Hl|exact Hy].
    - intros a' r' t' b' x a r t b y (Ha & Hl & Hy) (Ha' & Hl' & Hx) _.
      destruct (U_assign _ _ _ _ _ _ _ _ _ Hy Hx) as (z & E & Hz). unfold T.copy_assign. rewrite E, bind_ok.
      eexists. split; [reflexivity|]. split; [exact Ha|]. split; [exact Hl|exact Hz].
    - intros x a r t b y (Ha & Hl & Hy). unfold T.move_assign, M.move_assign.
      pose proof (U_swap (T.m_cshake x) _ _ _ _ _ Hy) as Hz. destruct (M.swap_selected _ _) as [z z'].
      split; [exact Ha|]. split; [exact Hl|exact Hz].
    - intros a [| |o] Ho; cbn [live_assign] in Ho; try contradiction. eauto.
    - intros [l c] r t He E. apply (f_equal (@length N)) in E. unfold tout in E. rewrite LK in E. cbn [fst length] in E.
      unfold tempty in He. apply Z.leb_gt in He. lia.
  Qed.
End Safe.

Ltac inst := first [assumption | (rewrite PC.R128 || rewrite PC.R256); first [reflexivity | lia]].

Lemma LS128 d m : length (Spec.Keccak.shake128 d m) = d.
Proof. rewrite Shake.shake128_sponge. apply KeccakOut.shake_length, Shake.rate128. Qed.
Lemma LS256 d m : length (Spec.Keccak.shake256 d m) = d.
Proof. rewrite Shake.shake256_sponge. apply KeccakOut.shake_length, Shake.rate256. Qed.
Lemma LK128 d m : length (PC.hashK128 d m) = d.
Proof. rewrite PC.hashK128_sponge. apply KeccakOut.shake_length, Shake.rate128. Qed.
Lemma LK256 d m : length (PC.hashK256 d m) = d.
Proof. rewrite PC.hashK256_sponge. apply KeccakOut.shake_length, Shake.rate256. Qed.

(** both builds *)
Section Builds.
  Variables (lg lg' : N -> N).
  Hypothesis Hlog : log2_accurate lg.
  Hypothesis Hlog' : log2_accurate lg'.
  Variables (R : nat) (sufS sufK P : N).
  Hypothesis HR0 : (0 < R)%nat.
  Hypothesis HR : (R <= 200)%nat.
  Hypothesis HP : P = N.of_nat R.
  Variables (hashS hashK : nat -> list N -> list N).
  Hypothesis US : forall dbg, exists absorb done : nat -> list N -> Buffer * K.St,
    forall d, Implements (K.cls R sufS dbg d) (hashS d) (fun _ => True) (absorb d) (done d).
  Hypothesis UK : forall dbg, exists absorb done : nat -> list N -> Buffer * K.St,
    forall d, Implements (K.cls R sufK dbg d) (hashK d) (fun _ => True) (absorb d) (done d).
  Hypothesis LS : forall d m, length (hashS d m) = d.
  Hypothesis LK : forall d m, length (hashK d m) = d.

  Theorem cshake_builds p : allowed cempty ok_cargs span_ok may_assign p ->
    exists os st st', oexec (M.cls lg R sufS sufK P true) p (fun _ => None) = Ok (os, st) /\
      oexec (M.cls lg' R sufS sufK P false) p (fun _ => None) = Ok (os, st').
  Proof.
    intros Hp. destruct (US true) as (aS & dS & IS). destruct (UK true) as (aK & dK & IK).
    destruct (US false) as (aS' & dS' & IS'). destruct (UK false) as (aK' & dK' & IK').
    pose proof (cshake_side lg true Hlog R sufS sufK P HR0 HR HP _ _ aS dS aK dK IS IK LS LK) as A.
    pose proof (cshake_side lg' false Hlog' R sufS sufK P HR0 HR HP _ _ aS' dS' aK' dK' IS' IK' LS LK) as B.
    pose proof (allowed_twin (M.cls lg R sufS sufK P true) (M.cls lg' R sufS sufK P false) (fun a => a) A B
      (fun a H => H) (fun a' l b a H => H) (fun a r l => eq_refl) p Hp) as G.
    cbn [M.cls Args] in G. rewrite omap_id in G. exact G.
  Qed.
  Theorem tuple_builds p : allowed tempty ok_targs short live_assign p ->
    exists os st st', oexec (T.cls lg R sufS sufK P true) p (fun _ => None) = Ok (os, st) /\
      oexec (T.cls lg' R sufS sufK P false) p (fun _ => None) = Ok (os, st').
  Proof.
    intros Hp. destruct (US true) as (aS & dS & IS). destruct (UK true) as (aK & dK & IK).
    destruct (US false) as (aS' & dS' & IS'). destruct (UK false) as (aK' & dK' & IK').
    pose proof (tuple_side lg true Hlog R sufS sufK P HR0 HR HP _ _ aS dS aK dK IS IK LS LK) as A.
    pose proof (tuple_side lg' false Hlog' R sufS sufK P HR0 HR HP _ _ aS' dS' aK' dK' IS' IK' LS LK) as B.
    pose proof (allowed_twin (T.cls lg R sufS sufK P true) (T.cls lg' R sufS sufK P false) (fun a => a) A B
      (fun a H => H) (fun a' l b a H => H) (fun a r l => eq_refl) p Hp) as G.
    cbn [T.cls Args] in G. rewrite omap_id in G. exact G.
  Qed.
End Builds.

Theorem cshake128_safe lg lg' p : log2_accurate lg -> log2_accurate lg' -> allowed cempty ok_cargs span_ok may_assign p ->
  exists os st st', oexec (M.cls128 lg true) p (fun _ => None) = Ok (os, st) /\ oexec (M.cls128 lg' false) p (fun _ => None) = Ok (os, st').
Proof.
  intros Hl Hl'. exact (cshake_builds lg lg' Hl Hl' (1344 / 8) 0x1F 0x04 (1344 / 8) ltac:(inst) ltac:(inst) ltac:(inst) _ _ PC.uniformS128 PC.uniformK128 LS128 LK128 p).
Qed.
Theorem cshake256_safe lg lg' p : log2_accurate lg -> log2_accurate lg' -> allowed cempty ok_cargs span_ok may_assign p ->
  exists os st st', oexec (M.cls256 lg true) p (fun _ => None) = Ok (os, st) /\ oexec (M.cls256 lg' false) p (fun _ => None) = Ok (os, st').
Proof.
  intros Hl Hl'. exact (cshake_builds lg lg' Hl Hl' (1088 / 8) 0x1F 0x04 (1088 / 8) ltac:(inst) ltac:(inst) ltac:(inst) _ _ PC.uniformS256 PC.uniformK256 LS256 LK256 p).
Qed.
Theorem tuplehash128_safe lg lg' p : log2_accurate lg -> log2_accurate lg' -> allowed tempty ok_targs short live_assign p ->
  exists os st st', oexec (T.cls128 lg true) p (fun _ => None) = Ok (os, st) /\ oexec (T.cls128 lg' false) p (fun _ => None) = Ok (os, st').
Proof.
  intros Hl Hl'. exact (tuple_builds lg lg' Hl Hl' (1344 / 8) 0x1F 0x04 (1344 / 8) ltac:(inst) ltac:(inst) ltac:(inst) _ _ PC.uniformS128 PC.uniformK128 LS128 LK128 p).
Qed.
Theorem tuplehash256_safe lg lg' p : log2_accurate lg -> log2_accurate lg' -> allowed tempty ok_targs short live_assign p ->
  exists os st st', oexec (T.cls256 lg true) p (fun _ => None) = Ok (os, st) /\ oexec (T.cls256 lg' false) p (fun _ => None) = Ok (os, st').
Proof.
  intros Hl Hl'. exact (tuple_builds lg lg' Hl Hl' (1088 / 8) 0x1F 0x04 (1088 / 8) ltac:(inst) ltac:(inst) ltac:(inst) _ _ PC.uniformS256 PC.uniformK256 LS256 LK256 p).
Qed.
