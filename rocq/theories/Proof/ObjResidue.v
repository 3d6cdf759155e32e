(** Proofs for C64: the memory of cSHAKE and TupleHash objects. *)
From Coq Require Import List NArith ZArith Arith Bool Lia.
From Verif.Base Require Import Res.
From Verif.Spec Require Import Words Client ObjClient CShakeArgs Log2 ObjMemory.
From Verif.Model Require Import Buffer Stream ObjApi.
From Verif.Spec Require Sp800185.
From Verif.Model Require Keccak CShake TupleHash.
From Verif.Proof Require Import Streaming.
From Verif.Proof Require CShake.
Import ListNotations.
Local Open Scope N_scope.

Module K := Verif.Model.Keccak.
Module M := Verif.Model.CShake.
Module T := Verif.Model.TupleHash.

(** ** results that satisfy a predicate whenever there is a result *)
Definition post {A} (Q : A -> Prop) (r : res A) : Prop := match r with Ok a => Q a | _ => True end.

Lemma post_bind {A B} (Q : A -> Prop) (W : B -> Prop) r f : post Q r -> (forall a, Q a -> post W (f a)) -> post W (bind r f).
Proof. destruct r; cbn [post bind]; auto. Qed.
Lemma post_any {A} (r : res A) : post (fun _ => True) r.
Proof. now destruct r. Qed.
Lemma post_imp {A} (Q W : A -> Prop) r : post Q r -> (forall a, Q a -> W a) -> post W r.
Proof. destruct r; cbn [post]; auto. Qed.
Lemma post_foldM {A S} (Q : S -> Prop) (f : A -> S -> res S) l : (forall a s, Q s -> post Q (f a s)) -> forall s, Q s -> post Q (foldM f l s).
Proof. intros H. induction l as [|a l IH]; intros s Hs; cbn [foldM]; [exact Hs|]. apply (post_bind Q); [now apply H|exact IH]. Qed.
Lemma post_for {S} (Q : S -> Prop) (f : nat -> S -> res S) n : (forall i s, Q s -> post Q (f i s)) -> forall i s, Q s -> post Q (for_ i n f s).
Proof. intros H. induction n as [|n IH]; intros i s Hs; cbn [for_]; [exact Hs|]. apply (post_bind Q); [now apply H|intros; now apply IH]. Qed.

(** ** the buffer keeps its size *)
Definition sized (n : nat) (b : Buffer) : Prop := length (b_arr b) = n.

Lemma new_sized n : sized n (buf_new n).
Proof. apply repeat_length. Qed.
Lemma clear_sized n b : sized n b -> buf_clear b = buf_new n.
Proof. unfold sized, buf_clear. now intros ->. Qed.
Lemma put_sized n v b : sized n b -> post (sized n) (buf_put v b).
Proof.
  intros H. unfold buf_put, aset. destruct (Nat.ltb _ _); cbn [bind post]; [|exact I]. unfold sized. cbn [b_arr]. now rewrite upd_length.
Qed.
Lemma fill_sized dbg n v k b : sized n b -> post (sized n) (buf_fill dbg v k b).
Proof.
  intros H. unfold buf_fill. apply (post_bind _ _ _ _ (post_any _)). intros _ _. apply post_for; [|exact H]. intros _ s Hs. now apply put_sized.
Qed.
Lemma push_sized dbg n d b : sized n b -> post (sized n) (buf_push_back dbg d b).
Proof. intros H. unfold buf_push_back. apply post_foldM; [|exact H]. intros a s Hs. now apply fill_sized. Qed.
Lemma range_sized dbg n d : post (sized n) (buf_of_range dbg n d).
Proof. exact (push_sized dbg n d (buf_new n) (new_sized n)). Qed.
Lemma set_sized n k i v b : sized n b -> post (sized n) (buf_set_from_end k i v b).
Proof.
  intros H. unfold buf_set_from_end, aset. destruct (Nat.ltb _ _); [exact I|]. destruct (Nat.ltb _ _); cbn [bind post]; [|exact I].
  unfold sized. cbn [b_arr]. now rewrite upd_length.
Qed.

Section Memory.
  Variables (R : nat) (dbg : bool).

  (** an object of Keccak: the size of the buffer, the digest length *)
  Definition kgood (len : nat) (x : Buffer * K.St) : Prop := sized R (fst x) /\ K.k_len (snd x) = len.
  Definition blank (len : nat) : Buffer * K.St := (buf_new R, K.mkSt (repeat 0 25) [] len).

  Lemma new_blank len : K.new R len = blank len.
  Proof. unfold K.new, K.reset, blank. cbn [fst snd K.k_len]. now rewrite (clear_sized R _ (new_sized R)). Qed.
  Lemma kgood_blank len : kgood len (blank len).
  Proof. split; [apply new_sized|reflexivity]. Qed.
  Lemma reset_blank len x : kgood len x -> K.reset x = blank len.
  Proof. intros [H1 H2]. unfold K.reset, blank. now rewrite (clear_sized R _ H1), H2. Qed.

  Lemma impl_len len d s : K.k_len s = len -> post (fun s => K.k_len s = len) (K.impl R dbg d s).
  Proof.
    intros H. unfold K.impl. apply (post_bind _ _ _ _ (post_any _)). intros _ _. apply (post_bind _ _ _ _ (post_any _)). intros l _. exact H.
  Qed.

  Lemma tail_good len d b s : kgood len (b, s) -> post (kgood len) (addData_tail K.St R R dbg (K.impl R dbg) d b s).
  Proof.
    intros [H1 H2]. cbn [fst snd] in *. unfold addData_tail. cbv zeta. destruct (Nat.ltb _ _).
    - apply (post_bind _ _ _ _ (range_sized dbg R _)). intros b' Hb. now split.
    - apply (post_bind _ _ _ _ (post_any _)). intros d' _. apply (post_bind _ _ _ _ (impl_len len _ _ H2)). intros s' Hs.
      destruct (Nat.ltb _ _); [|now split]. apply (post_bind _ _ _ _ (range_sized dbg R _)). intros b' Hb. now split.
  Qed.

  Lemma add_good len d x : kgood len x -> post (kgood len) (K.addData R dbg d x).
  Proof.
    destruct x as [b s]. intros [H1 H2]. cbn [fst snd] in *. unfold K.addData, Stream.addData. destruct (negb _).
    - cbv zeta. apply (post_bind _ _ _ _ (push_sized dbg R _ _ H1)). intros b' Hb. destruct (Nat.ltb _ _); [now split|].
      apply (post_bind _ _ _ _ (impl_len len _ _ H2)). intros s' Hs. apply (post_bind _ _ _ _ (post_any _)). intros d' _.
      apply tail_good. split; [|exact Hs]. rewrite (clear_sized R _ Hb). apply new_sized.
    - now apply tail_good.
  Qed.

  Lemma squish_len len k : forall s, K.k_len s = len -> post (fun s => K.k_len s = len) (K.squish R dbg k s).
  Proof.
    induction k as [|k IH]; intros s H; cbn [K.squish]; [exact I|]. cbv zeta. apply (post_bind _ _ _ _ (post_any _)). intros h _.
    destruct (Nat.leb _ _); [exact H|]. apply (post_bind (fun s => K.k_len s = len)); [now apply impl_len|exact IH].
  Qed.

  Lemma fin_good suf len x : kgood len x -> post (fun y => kgood len y /\ fst y = buf_new R) (K.finalize R suf dbg x).
  Proof.
    destruct x as [b s]. intros [H1 H2]. cbn [fst snd] in *. unfold K.finalize.
    apply (post_bind _ _ _ _ (fill_sized dbg R _ _ _ H1)). intros b1 B1. cbv zeta.
    apply (post_bind _ _ _ _ (fill_sized dbg R _ _ _ B1)). intros b2 B2.
    apply (post_bind _ _ _ _ (post_any _)). intros v _.
    apply (post_bind _ _ _ _ (set_sized R _ _ _ _ B2)). intros b3 B3.
    apply (post_bind _ _ _ _ (impl_len len _ _ H2)). intros s1 S1.
    apply (post_bind _ _ _ _ (squish_len len _ _ S1)). intros s2 S2.
    cbn [post fst snd kgood K.k_len]. rewrite (clear_sized R _ B3). split; [split; [apply new_sized|exact S2]|reflexivity].
  Qed.

  (** ** objects of CSHAKE: at most the pointer of the right kind is set; Q ties kind and digest length to the program *)
  Variables (log2 : N -> N) (sufS sufK : N) (P : N).
  Definition holds (Q : bool -> nat -> Prop) (o : M.Obj) : Prop :=
    match M.m_shake o, M.m_keccak o with
    | Some x, None => M.m_customized o = false /\ exists len, Q false len /\ kgood len x
    | None, Some x => M.m_customized o = true /\ exists len, Q true len /\ kgood len x
    | None, None => M.m_customized o = false
    | Some _, Some _ => False
    end.
  Definition wiped (c : bool) (len : nat) : M.Obj := if c then M.mkObj true None (Some (blank len)) else M.mkObj false (Some (blank len)) None.

  Lemma on_holds (Q : bool -> nat -> Prop) f o : (forall suf len x, kgood len x -> post (kgood len) (f suf x)) -> holds Q o ->
    post (holds Q) (M.on_selected sufS sufK f o).
  Proof.
    intros Hf H. destruct o as [c [x|] [y|]]; unfold holds, M.on_selected in *; cbn [M.m_shake M.m_keccak M.m_customized] in *; try contradiction;
      [destruct H as [-> (len & Hq & Hg)]|destruct H as [-> (len & Hq & Hg)]|subst c; exact I]; cbn [negb M.deref bind];
      apply (post_bind _ _ _ _ (Hf _ len _ Hg)); intros z Hz; (split; [reflexivity|]); exists len; now split.
  Qed.

  Lemma cadd_holds Q d o : holds Q o -> post (holds Q) (M.addData R sufS sufK dbg d o).
  Proof. apply on_holds. intros _ len x. apply add_good. Qed.
  Lemma cfin_holds Q o : holds Q o -> post (holds Q) (M.finalize R sufS sufK dbg o).
  Proof. apply on_holds. intros suf len x Hx. refine (post_imp _ _ _ (fin_good suf len x Hx) _). now intros a [Ha _]. Qed.
  Lemma creset_wiped (Q : bool -> nat -> Prop) o : holds Q o -> post (fun y => exists len, Q (M.m_customized o) len /\ y = wiped (M.m_customized o) len) (M.reset sufS sufK o).
  Proof.
    intros H. destruct o as [c [x|] [y|]]; unfold holds, M.reset, M.on_selected in *; cbn [M.m_shake M.m_keccak M.m_customized] in *; try contradiction;
      [destruct H as [-> (len & Hq & Hg)]|destruct H as [-> (len & Hq & Hg)]|subst c; exact I]; cbn [negb M.deref bind post];
      exists len; (split; [exact Hq|]); now rewrite (reset_blank len _ Hg).
  Qed.
  Lemma wiped_holds (Q : bool -> nat -> Prop) c len : Q c len -> holds Q (wiped c len).
  Proof. intros H. destruct c; (split; [reflexivity|]); exists len; (split; [exact H|apply kgood_blank]). Qed.
  Lemma creset_holds Q o : holds Q o -> post (holds Q) (M.reset sufS sufK o).
  Proof. intros H. refine (post_imp _ _ _ (creset_wiped Q o H) _). intros a (len & Hq & ->). now apply wiped_holds. Qed.

  (** after finalize(): the buffer of the object in use is new, the other pointer is null *)
  Lemma cfin_clear Q o : holds Q o ->
    post (fun y => exists s, y = if M.m_customized o then M.mkObj true None (Some (buf_new R, s)) else M.mkObj false (Some (buf_new R, s)) None) (M.finalize R sufS sufK dbg o).
  Proof.
    intros H. destruct o as [c [x|] [y|]]; unfold holds, M.finalize, M.on_selected in *; cbn [M.m_shake M.m_keccak M.m_customized] in *; try contradiction;
      [destruct H as [-> (len & Hq & Hg)]|destruct H as [-> (len & Hq & Hg)]|subst c; exact I]; cbn [negb M.deref bind];
      apply (post_bind _ _ _ _ (fin_good _ len _ Hg)); intros [b s] [_ E]; cbn [fst] in E; subst b; exists s; reflexivity.
  Qed.

  Lemma process_holds Q s o z : holds Q o -> post (fun r => holds Q (fst r)) (M.processString log2 R sufS sufK dbg s o z).
  Proof.
    intros H. unfold M.processString. apply (post_bind _ _ _ _ (post_any _)). intros e _.
    apply (post_bind _ _ _ _ (cadd_holds Q _ _ H)). intros o1 H1. cbv zeta. apply (post_bind _ _ _ _ (cadd_holds Q _ _ H1)). intros o2 H2. exact H2.
  Qed.

  Lemma kconstruct_post l : post (fun x => x = blank (Z.to_nat l)) (K.construct R l).
  Proof. unfold K.construct. destruct (_ <? _)%Z; [exact I|apply new_blank]. Qed.

  Lemma construct_holds (Q : bool -> nat -> Prop) l n c : Q (customized (l, n, c)) (Z.to_nat l) -> post (holds Q) (M.construct log2 R sufS sufK P dbg l n c).
  Proof.
    intros H. unfold M.construct. change (negb (M.is_empty n && M.is_empty c)) with (customized (l, n, c)). destruct (customized (l, n, c)); cbn [negb].
    - apply (post_bind _ _ _ _ (kconstruct_post l)). intros x ->. apply (post_bind _ _ _ _ (post_any _)). intros e _.
      apply (post_bind _ _ _ _ (cadd_holds Q _ (M.mkObj true None (Some (blank (Z.to_nat l)))) (wiped_holds Q true _ H))). intros o1 H1. cbv zeta.
      apply (post_bind _ _ _ _ (process_holds Q n _ _ H1)). intros [o2 z2] H2. cbn [fst] in H2.
      apply (post_bind _ _ _ _ (process_holds Q c _ _ H2)). intros [o3 z3] H3. cbn [fst] in H3.
      apply post_for; [|exact H3]. intros _ s Hs. now apply cadd_holds.
    - apply (post_bind _ _ _ _ (kconstruct_post l)). intros x ->. exact (wiped_holds Q false _ H).
  Qed.

  Lemma copy_holds Q o : holds Q o -> post (holds Q) (M.copy_construct o).
  Proof.
    intros H. destruct o as [c [x|] [y|]]; unfold holds, M.copy_construct in *; cbn [M.m_shake M.m_keccak M.m_customized] in *; try contradiction;
      [destruct H as [-> H]|destruct H as [-> H]|subst c; exact I]; cbn [negb M.deref bind post]; unfold holds; cbn [M.m_shake M.m_keccak M.m_customized]; now split.
  Qed.
  Lemma move_holds Q o : holds Q o -> holds Q (fst (M.move_construct o)) /\ holds Q (snd (M.move_construct o)).
  Proof.
    intros H. destruct o as [c [x|] [y|]]; unfold holds, M.move_construct, M.swap_selected in *; cbn [M.m_shake M.m_keccak M.m_customized] in *; try contradiction;
      [destruct H as [-> H]|destruct H as [-> H]|subst c]; cbn [negb fst snd M.m_shake M.m_keccak M.m_customized]; now repeat split.
  Qed.
  Lemma assign_holds Q t o : holds Q t -> holds Q o -> post (holds Q) (M.copy_assign t o).
  Proof.
    intros Ht H. destruct t as [ct [xt|] [yt|]], o as [c [x|] [y|]]; unfold holds, M.copy_assign in *; cbn [M.m_shake M.m_keccak M.m_customized] in *; try contradiction;
      repeat match goal with H : _ /\ _ |- _ => destruct H end; subst; cbn [negb M.deref bind post]; try exact I;
      unfold holds; cbn [M.m_shake M.m_keccak M.m_customized]; now split.
  Qed.
End Memory.

(** ** programs *)
Section Programs.
  Variable C : ObjClass.
  Variable Inv : OObj C -> Prop.
  Variable Qa : Args C -> Prop.
  Hypothesis Hnew : forall a, Qa a -> post Inv (oc_construct C a).
  Hypothesis Hfeed : forall d o, Inv o -> post Inv (oc_feed C d o).
  Hypothesis Hfin : forall o, Inv o -> post Inv (oc_finalize C o).
  Hypothesis Hrst : forall o, Inv o -> post Inv (oc_reset C o).
  Hypothesis Hcopy : forall o, Inv o -> post Inv (oc_copy C o).
  Hypothesis Hmove : forall o, Inv o -> Inv (fst (oc_move C o)) /\ Inv (snd (oc_move C o)).
  Hypothesis Hassign : forall t o, Inv t -> Inv o -> post Inv (oc_assign C t o).

  Definition all (s : ostore C) : Prop := forall i x, s i = Some x -> Inv x.

  Lemma all_put s i x : all s -> Inv x -> all (sput C s i x).
  Proof using. intros Hs Hx j y. unfold sput. destruct (Nat.eqb j i); [intros [= <-]; exact Hx|apply Hs]. Qed.
  Lemma get_post s i : all s -> post Inv (sget C s i).
  Proof using. intros Hs. unfold sget. destruct (s i) eqn:E; [exact (Hs i _ E)|exact I]. Qed.
  Lemma observe_post s i f : all s -> post (fun r => all (fst r)) (observe C s i f).
  Proof using.
    intros Hs. unfold observe. apply (post_bind _ _ _ _ (post_any _)). intros x _. apply (post_bind _ _ _ _ (post_any _)). intros d _.
    apply (post_bind _ _ _ _ (post_any _)). intros w _. exact Hs.
  Qed.
  Lemma update_post s i f : all s -> (forall x, Inv x -> post Inv (f x)) -> post (fun r => all (fst r)) (update C s i f).
  Proof using.
    intros Hs Hf. unfold update. apply (post_bind _ _ _ _ (get_post s i Hs)). intros x Hx. apply (post_bind _ _ _ _ (Hf x Hx)). intros y Hy. now apply all_put.
  Qed.

  Definition allowed (c : ocmd (Args C)) : Prop := match c with Construct _ a => Qa a | MoveAssign _ _ => False | _ => True end.

  Lemma cmd_post c s : all s -> allowed c -> post (fun r => all (fst r)) (exec_ocmd C c s).
  Proof.
    intros Hs Hc. destruct c; cbn [exec_ocmd allowed] in *; try contradiction; try (now apply observe_post); try (now apply update_post; auto).
    - apply (post_bind _ _ _ _ (Hnew _ Hc)). intros x Hx. now apply all_put.
    - apply (post_bind _ _ _ _ (get_post s _ Hs)). intros y Hy. apply (post_bind _ _ _ _ (Hcopy y Hy)). intros x Hx. now apply all_put.
    - apply (post_bind _ _ _ _ (get_post s _ Hs)). intros y Hy. pose proof (Hmove y Hy) as [H1 H2]. destruct (oc_move C y) as [x z]. cbn [fst snd] in *.
      apply all_put; [now apply all_put|assumption].
    - apply (post_bind _ _ _ _ (get_post s _ Hs)). intros x Hx. apply (post_bind _ _ _ _ (get_post s _ Hs)). intros y Hy.
      destruct (Nat.eqb _ _); [exact Hs|]. apply (post_bind _ _ _ _ (Hassign x y Hx Hy)). intros z Hz. now apply all_put.
  Qed.

  Lemma exec_post p : forall s, all s -> Forall allowed p -> post (fun r => all (snd r)) (oexec C p s).
  Proof.
    induction p as [|c p IH]; intros s Hs Hp; cbn [oexec]; [exact Hs|]. inversion Hp; subst.
    apply (post_bind _ _ _ _ (cmd_post c s Hs ltac:(assumption))). intros r Hr.
    apply (post_bind _ _ _ _ (IH _ Hr ltac:(assumption))). intros t Ht. exact Ht.
  Qed.

  Lemma exec_inv p os st i x : Forall allowed p -> oexec C p (fun _ => None) = Ok (os, st) -> st i = Some x -> Inv x.
  Proof.
    intros Hp E Hx. pose proof (exec_post p (fun _ => None) ltac:(discriminate) Hp) as H. rewrite E in H. exact (H i x Hx).
  Qed.
End Programs.

(** ** cSHAKE *)
Section CShakePrograms.
  Variables (log2 : N -> N) (R : nat) (sufS sufK : N) (P : N) (dbg : bool).
  Let C := M.cls log2 R sufS sufK P dbg.

  Lemma cshake_inv (p : list (ocmd (Args C))) os st i x : Forall calm p -> oexec C p (fun _ => None) = Ok (os, st) -> st i = Some x -> holds R (cmade p) x.
  Proof.
    intros Hp. apply (exec_inv C (holds R (cmade p)) (fun a => exists i, In (Construct i a) p)).
    - intros [[l n] c] [j Hj]. apply construct_holds. exists j, (l, n, c). now repeat split.
    - intros d o. apply cadd_holds.
    - intros o. apply cfin_holds.
    - intros o. apply creset_holds.
    - intros o. apply copy_holds.
    - intros o. apply move_holds.
    - intros t o. apply assign_holds.
    - apply Forall_forall. intros c Hc. rewrite Forall_forall in Hp. pose proof (Hp c Hc) as Hq. destruct c; try exact I; [|contradiction]. now exists i0.
  Qed.

  Theorem cshake_reset (p : list (ocmd (Args C))) os st i x y : Forall calm p -> oexec C p (fun _ => None) = Ok (os, st) -> st i = Some x ->
    oc_reset C x = Ok y -> exists len, cmade p (M.m_customized x) len /\ y = wiped R (M.m_customized x) len.
  Proof.
    intros Hp E Hx Ey. pose proof (creset_wiped R sufS sufK _ x (cshake_inv p os st i x Hp E Hx)) as H. change (M.reset sufS sufK x = Ok y) in Ey. rewrite Ey in H. exact H.
  Qed.
  Theorem cshake_fin (p : list (ocmd (Args C))) os st i x y : Forall calm p -> oexec C p (fun _ => None) = Ok (os, st) -> st i = Some x ->
    oc_finalize C x = Ok y -> exists s, y = if M.m_customized x then M.mkObj true None (Some (buf_new R, s)) else M.mkObj false (Some (buf_new R, s)) None.
  Proof.
    intros Hp E Hx Ey. pose proof (cfin_clear R dbg sufS sufK _ x (cshake_inv p os st i x Hp E Hx)) as H. change (M.finalize R sufS sufK dbg x = Ok y) in Ey. rewrite Ey in H. exact H.
  Qed.
End CShakePrograms.

(** ** TupleHash: always customized *)

Section TuplePrograms.
  Variables (log2 : N -> N) (R : nat) (sufS sufK : N) (P : N) (dbg : bool).
  Let C := T.cls log2 R sufS sufK P dbg.

  (** a moved-from object has lost its CSHAKE; the length is kept *)
  Definition tholds (Q : Z -> Prop) (o : T.Obj) : Prop :=
    Q (T.m_digestLength o) /\ holds R (fun c len => c = true /\ exists z, Q z /\ len = Z.to_nat z /\ z = T.m_digestLength o) (T.m_cshake o).

  Lemma holds_imp (Q W : bool -> nat -> Prop) o : (forall c len, Q c len -> W c len) -> holds R Q o -> holds R W o.
  Proof.
    intros H. destruct o as [c [x|] [y|]]; unfold holds; cbn [M.m_shake M.m_keccak M.m_customized]; auto; intros [E (len & Hq & Hg)]; (split; [exact E|]); exists len; auto.
  Qed.

  Lemma tmap (Q : Z -> Prop) f o : (forall W c, holds R W c -> post (holds R W) (f c)) -> tholds Q o ->
    post (tholds Q) (let! c := f (T.m_cshake o) in Ok (T.mkObj c (T.m_digestLength o))).
  Proof. intros Hf [H1 H2]. apply (post_bind _ _ _ _ (Hf _ _ H2)). intros c Hc. now split. Qed.

  Lemma tuple_inv (p : list (ocmd (Args C))) os st i x : Forall calm p -> oexec C p (fun _ => None) = Ok (os, st) -> st i = Some x -> tholds (tmade p) x.
  Proof.
    intros Hp. apply (exec_inv C (tholds (tmade p)) (fun a => exists i, In (Construct i a) p)).
    - intros [l c] [j Hj]. cbn [oc_construct C T.cls]. unfold T.construct.
      refine (post_bind _ _ _ _ (construct_holds R dbg log2 sufS sufK P (fun b len => b = true /\ exists z, tmade p z /\ len = Z.to_nat z /\ z = l) l T.name c _) _).
      + split; [reflexivity|]. exists l. repeat split. now exists j, c.
      + intros o Ho. split; [now exists j, c|exact Ho].
    - intros d o H. cbn [oc_feed C T.cls]. unfold T.nextData. apply (post_bind _ _ _ _ (post_any _)). intros e _.
      unfold T.addDataImpl at 1. refine (post_bind _ _ _ _ (tmap _ _ _ _ H) _); [intros W c; apply cadd_holds|]. intros o1 H1.
      unfold T.addDataImpl. refine (tmap _ _ _ _ H1). intros W c. apply cadd_holds.
    - intros o H. cbn [oc_finalize C T.cls]. unfold T.finalize. apply (post_bind _ _ _ _ (post_any _)). intros b _.
      apply (post_bind _ _ _ _ (post_any _)). intros e _.
      unfold T.addDataImpl. refine (post_bind _ _ _ _ (tmap _ _ _ _ H) _); [intros W c; apply cadd_holds|]. intros o1 H1.
      refine (tmap _ _ _ _ H1). intros W c. apply cfin_holds.
    - intros o H. refine (tmap _ _ _ _ H). intros W c. apply creset_holds.
    - intros o H. refine (tmap _ _ _ _ H). intros W c. apply copy_holds.
    - intros o [H1 H2]. cbn [oc_move C T.cls]. unfold T.move_construct. destruct (move_holds R _ _ H2) as [M1 M2].
      destruct (M.move_construct (T.m_cshake o)) as [a b]. now repeat split.
    - intros t o [T1 T2] [H1 H2]. cbn [oc_assign C T.cls]. unfold T.copy_assign.
      destruct t as [[ct [xt|] [yt|]] zt], o as [[c [x0|] [y0|]] z]; unfold holds, M.copy_assign in *;
        cbn [T.m_cshake T.m_digestLength M.m_shake M.m_keccak M.m_customized] in *; try contradiction;
        repeat match goal with H : _ /\ _ |- _ => destruct H end; subst; cbn [negb M.deref bind post]; try exact I;
        (split; [assumption|]); unfold holds; cbn [T.m_cshake T.m_digestLength M.m_shake M.m_keccak M.m_customized]; now split.
    - apply Forall_forall. intros c Hc. rewrite Forall_forall in Hp. pose proof (Hp c Hc) as Hq. destruct c; try exact I; [|contradiction]. now exists i0.
  Qed.

  Theorem tuple_reset (p : list (ocmd (Args C))) os st i x y : Forall calm p -> oexec C p (fun _ => None) = Ok (os, st) -> st i = Some x ->
    oc_reset C x = Ok y -> exists z, tmade p z /\ y = T.mkObj (wiped R true (Z.to_nat z)) z.
  Proof.
    intros Hp E Hx Ey. pose proof (tuple_inv p os st i x Hp E Hx) as [H1 H2]. pose proof (creset_wiped R sufS sufK _ _ H2) as H.
    change (T.reset sufS sufK x = Ok y) in Ey. unfold T.reset in Ey. destruct (M.reset sufS sufK (T.m_cshake x)) as [c| |]; cbn [bind] in Ey; try discriminate.
    injection Ey as <-. destruct H as (len & [Ec (z & Hz & -> & ->)] & ->). exists (T.m_digestLength x). split; [exact H1|]. now rewrite Ec.
  Qed.
  Theorem tuple_fin (p : list (ocmd (Args C))) os st i x y : Forall calm p -> oexec C p (fun _ => None) = Ok (os, st) -> st i = Some x ->
    oc_finalize C x = Ok y -> exists s, T.m_cshake y = M.mkObj true None (Some (buf_new R, s)).
  Proof.
    intros Hp E Hx Ey. pose proof (tuple_inv p os st i x Hp E Hx) as H0.
    change (T.finalize log2 R sufS sufK dbg x = Ok y) in Ey.
    assert (post (fun y => exists s, T.m_cshake y = M.mkObj true None (Some (buf_new R, s))) (T.finalize log2 R sufS sufK dbg x)) as H.
    { unfold T.finalize. apply (post_bind _ _ _ _ (post_any _)). intros b _. apply (post_bind _ _ _ _ (post_any _)). intros e _.
      unfold T.addDataImpl. refine (post_bind _ _ _ _ (tmap _ _ _ _ H0) _); [intros W c; apply cadd_holds|]. intros o1 [_ H1].
      pose proof (cfin_clear R dbg sufS sufK _ _ H1) as H2.
      destruct o1 as [[cu [a|] [a'|]] z]; unfold holds in H1; cbn [T.m_cshake M.m_shake M.m_keccak M.m_customized] in *; try contradiction.
      - destruct H1 as [_ (len & [E1 _] & _)]. discriminate.
      - destruct H1 as [-> _]. apply (post_bind _ _ _ _ H2). intros c [s ->]. now exists s.
      - subst cu. exact I. }
    rewrite Ey in H. exact H.
  Qed.
End TuplePrograms.

(** ** move assignment between the two kinds: the old object stays behind the pointer that is not in use *)
Section Left.
  Variables (log2 : N -> N) (R : nat) (sufS sufK : N) (P : N) (dbg : bool).
  Let C := M.cls log2 R sufS sufK P dbg.

  Lemma add_short len d : (length d < R)%nat -> K.addData R dbg d (blank R len) = Ok (canon R d, K.mkSt (repeat 0 25) [] len).
  Proof using.
    intros H. unfold K.addData, Stream.addData, blank. cbn [buf_empty buf_new b_end negb Nat.eqb]. unfold addData_tail. cbv zeta.
    apply Nat.ltb_lt in H as H'. rewrite H'. rewrite of_range_canon by lia. reflexivity.
  Qed.

  Lemma left_over l d a o k : (0 <= l)%Z -> (length d < R)%nat -> oc_construct C a = Ok o -> o = M.mkObj true None (Some k) ->
    exists st x, oexec C [Construct 0 (l, [], []); Feed 0 d; Construct 1 a; MoveAssign 0 1; Rst 0] (fun _ => None) = Ok ([], st) /\
      st 0%nat = Some x /\ M.m_shake x = Some (canon R d, K.mkSt (repeat 0 25) [] (Z.to_nat l)).
  Proof.
    intros Hl Hd E1 ->.
    assert (oc_construct C (l, [], []) = Ok (M.mkObj false (Some (blank R (Z.to_nat l))) None)) as E0.
    { cbn [oc_construct C M.cls]. unfold M.construct, K.construct. destruct (Z.ltb_spec l 0); [lia|]. cbn [M.is_empty andb negb bind]. now rewrite new_blank. }
    assert (oc_feed C d (M.mkObj false (Some (blank R (Z.to_nat l))) None) = Ok (M.mkObj false (Some (canon R d, K.mkSt (repeat 0 25) [] (Z.to_nat l))) None)) as E2.
    { cbn [oc_feed C M.cls]. unfold M.addData, M.on_selected. cbn [M.m_customized M.m_shake M.m_keccak negb M.deref bind]. now rewrite add_short. }
    cbn [oexec exec_ocmd]. rewrite E0. unfold update, sget, sput. cbn [bind fst snd Nat.eqb]. rewrite E2. cbn [bind fst snd]. rewrite E1. cbn [bind fst snd Nat.eqb].
    cbn [oc_massign C M.cls]. unfold M.move_assign, M.swap_selected. cbn [M.m_customized M.m_shake M.m_keccak negb bind fst snd Nat.eqb].
    cbn [oc_reset M.cls]. unfold M.reset, M.on_selected. cbn [M.m_customized M.m_shake M.m_keccak negb M.deref bind fst snd].
    eexists. eexists. split; [reflexivity|]. split; reflexivity.
  Qed.
End Left.

Section LeftInstances.
  Variables (log2 : N -> N) (dbg : bool).
  Hypothesis Hlog : log2_accurate log2.

  Lemma made128 a : ok_cargs a -> customized a = true -> exists k, oc_construct (M.cls128 log2 dbg) a = Ok (M.mkObj true None (Some k)).
  Proof using Hlog.
    intros Ha Hc. destruct (CShake.uniformS128 dbg) as (aS & dS & IS). destruct (CShake.uniformK128 dbg) as (aK & dK & IK). destruct a as [[l n] c].
    destruct (CShake.construct_full log2 dbg Hlog (1344 / 8) 0x1F 0x04 (1344 / 8) ltac:(CShake.inst) ltac:(CShake.inst) ltac:(CShake.inst) _ _ aS dS aK dK IS IK l n c Ha) as (o & E & Ro & Hn).
    destruct o as [cu s k]. destruct Ro as (_ & _ & Hcu & Hk). unfold CShake.other_null in Hn. cbn [M.m_customized M.m_shake M.m_keccak] in *. subst cu. rewrite Hc in *. subst s.
    unfold customized in Hc. destruct (Sp800185.is_nil n && Sp800185.is_nil c); [discriminate|]. subst k. eexists. exact E.
  Qed.
  Theorem left128 l d a : (0 <= l)%Z -> (length d < 168)%nat -> ok_cargs a -> customized a = true ->
    exists st x, oexec (M.cls128 log2 dbg) [Construct 0 (l, [], []); Feed 0 d; Construct 1 a; MoveAssign 0 1; Rst 0] (fun _ => None) = Ok ([], st) /\
      st 0%nat = Some x /\ M.m_shake x = Some (mkBuffer (d ++ repeat 0 (168 - length d)) (length d), K.mkSt (repeat 0 25) [] (Z.to_nat l)).
  Proof using Hlog.
    intros Hl Hd Ha Hc. destruct (made128 a Ha Hc) as [k E].
    exact (left_over log2 (1344 / 8) 0x1F 0x04 (1344 / 8) dbg l d a _ k Hl Hd E eq_refl).
  Qed.
  Lemma made256 a : ok_cargs a -> customized a = true -> exists k, oc_construct (M.cls256 log2 dbg) a = Ok (M.mkObj true None (Some k)).
  Proof using Hlog.
    intros Ha Hc. destruct (CShake.uniformS256 dbg) as (aS & dS & IS). destruct (CShake.uniformK256 dbg) as (aK & dK & IK). destruct a as [[l n] c].
    destruct (CShake.construct_full log2 dbg Hlog (1088 / 8) 0x1F 0x04 (1088 / 8) ltac:(CShake.inst) ltac:(CShake.inst) ltac:(CShake.inst) _ _ aS dS aK dK IS IK l n c Ha) as (o & E & Ro & Hn).
    destruct o as [cu s k]. destruct Ro as (_ & _ & Hcu & Hk). unfold CShake.other_null in Hn. cbn [M.m_customized M.m_shake M.m_keccak] in *. subst cu. rewrite Hc in *. subst s.
    unfold customized in Hc. destruct (Sp800185.is_nil n && Sp800185.is_nil c); [discriminate|]. subst k. eexists. exact E.
  Qed.
  Theorem left256 l d a : (0 <= l)%Z -> (length d < 136)%nat -> ok_cargs a -> customized a = true ->
    exists st x, oexec (M.cls256 log2 dbg) [Construct 0 (l, [], []); Feed 0 d; Construct 1 a; MoveAssign 0 1; Rst 0] (fun _ => None) = Ok ([], st) /\
      st 0%nat = Some x /\ M.m_shake x = Some (mkBuffer (d ++ repeat 0 (136 - length d)) (length d), K.mkSt (repeat 0 25) [] (Z.to_nat l)).
  Proof using Hlog.
    intros Hl Hd Ha Hc. destruct (made256 a Ha Hc) as [k E].
    exact (left_over log2 (1088 / 8) 0x1F 0x04 (1088 / 8) dbg l d a _ k Hl Hd E eq_refl).
  Qed.
End LeftInstances.

Lemma tuple_of_cshake log2 R sufS sufK P dbg l c o : oc_construct (M.cls log2 R sufS sufK P dbg) (l, T.name, c) = Ok o ->
  oc_construct (T.cls log2 R sufS sufK P dbg) (l, c) = Ok (T.mkObj o l).
Proof. cbn [oc_construct M.cls T.cls]. unfold T.construct. now intros ->. Qed.
Lemma tuple_one log2 R sufS sufK P dbg l c k : let C := T.cls log2 R sufS sufK P dbg in
  oc_construct (M.cls log2 R sufS sufK P dbg) (l, T.name, c) = Ok (M.mkObj true None (Some k)) ->
  exists st x y, oexec C [Construct 5 (l, c)] (fun _ => None) = Ok ([], st) /\ st 5%nat = Some x /\ oc_reset C x = Ok y.
Proof.
  intros C E. apply tuple_of_cshake in E. cbn [oexec exec_ocmd]. unfold C. rewrite E. cbn [bind fst snd]. do 3 eexists. split; [reflexivity|]. split; reflexivity.
Qed.
Lemma tuple256_one log2 dbg l c : log2_accurate log2 -> ok_cargs (l, T.name, c) ->
  exists st x y, oexec (T.cls256 log2 dbg) [Construct 5 (l, c)] (fun _ => None) = Ok ([], st) /\ st 5%nat = Some x /\ oc_reset (T.cls256 log2 dbg) x = Ok y.
Proof. intros Hlog Ha. destruct (made256 log2 dbg Hlog _ Ha eq_refl) as [k E]. exact (tuple_one log2 _ _ _ _ dbg l c k E). Qed.
