(** C37: the command line tool prints the digest by the named algorithm of the bytes it was given. *)
From Coq Require Import String List NArith ZArith Arith Bool Lia.
From Verif.Base Require Import Res.
From Verif.Spec Require Import Words Client Log2 Cli.
From Verif.Model Require Import Api Cli.
From Verif.Tests Require Import Kit KitObj.
From Verif.Spec Require Sp800185 Sha1.
From Verif.Proof Require CShake Cli.
Import ListNotations.
Local Open Scope N_scope.

(** ** what holds *)

(** Every option without further arguments, but four; the exact bytes however the reads cut them.  [short_tigers] are
    "-tiger1-128", "-tiger1-160", "-tiger2-128" and "-tiger2-160".  Missing: those four, refuted below. *)
Theorem C37_file_partial : forall lg dbg elided w o hash dom p f m,
  In (o, File hash dom) documented -> ~ In o Proof.Cli.short_tigers -> delivers (source_of w f) m -> dom m ->
  main lg dbg elided w [p; codes o; f] = Ok (report (hash m) f).
Proof. exact Proof.Cli.file_ok. Qed.
Print Assumptions C37_file_partial.

(** "-shake-128 LENGTH FILE" and "-shake-256 LENGTH FILE" *)
Theorem C37_sized : forall lg dbg elided w o hash p n f m,
  In (o, Sized hash) documented -> 0 < n < 2 ^ 31 -> delivers (source_of w f) m ->
  main lg dbg elided w [p; codes o; decimal n; f] = Ok (report (hash (N.to_nat n) m) f).
Proof. exact Proof.Cli.sized_ok. Qed.
Print Assumptions C37_sized.

(** "-tuple-hash-128 LENGTH CUSTOMIZATION FILE", the file being the only element.  Missing: lengths of 2^28 and more (refuted
    below), and strings of 2^53 bytes and more. *)
Theorem C37_tuple128_partial : forall lg dbg elided w p n s f m, log2_accurate lg -> 0 < n < 2 ^ 28 ->
  Sp800185.short s -> Sp800185.short m -> delivers (source_of w f) m ->
  main lg dbg elided w [p; codes "-tuple-hash-128"; decimal n; s; f] = Ok (report (Sp800185.tuplehash128 (N.to_nat n) s [m]) f).
Proof. exact Proof.Cli.tuple128_ok. Qed.
Print Assumptions C37_tuple128_partial.
Theorem C37_tuple256_partial : forall lg dbg elided w p n s f m, log2_accurate lg -> 0 < n < 2 ^ 28 ->
  Sp800185.short s -> Sp800185.short m -> delivers (source_of w f) m ->
  main lg dbg elided w [p; codes "-tuple-hash-256"; decimal n; s; f] = Ok (report (Sp800185.tuplehash256 (N.to_nat n) s [m]) f).
Proof. exact Proof.Cli.tuple256_ok. Qed.
Print Assumptions C37_tuple256_partial.

(** Unknown options and wrong numbers of arguments print the usage text, whatever the files contain ... *)
Theorem C37_usage : forall lg dbg elided w p args, unusable args ->
  main lg dbg elided w (p :: args) = Ok (mkOutput (printUsage p) 0).
Proof. exact Proof.Cli.usage_ok. Qed.
Print Assumptions C37_usage.
(** ... and so does a length without a digit in it. *)
Theorem C37_not_a_number : forall lg dbg elided w o u p s rest,
  In (o, u) documented -> (2 <= arguments u)%nat -> length (s :: rest) = arguments u -> Forall (fun c => ~ 48 <= c <= 57) s ->
  main lg dbg elided w (p :: codes o :: s :: rest) = Ok (mkOutput (printUsage p) 0).
Proof. exact Proof.Cli.no_number_ok. Qed.
Print Assumptions C37_not_a_number.

(** The words of a text, and those that look like options. *)
Definition blank (c : N) : bool := (c =? 32) || (c =? 9) || (c =? 10).
Fixpoint words_of (t word : list N) : list (list N) :=
  match t with
  | [] => [word]
  | c :: t => if blank c then word :: words_of t [] else words_of t (word ++ [c])
  end.
Definition option_word (s : list N) : bool := match s with c :: _ :: _ => c =? 45 | _ => false end.
(** The options that the usage text names are exactly those of the theorems above. *)
Theorem C37_usage_text : exists rest, (forall p, printUsage p = codes "Usage: " ++ p ++ rest) /\
  filter option_word (words_of rest []) = map (fun e => codes (fst e)) documented.
Proof.
  eexists. split.
  - intros p. unfold printUsage. apply f_equal2; [vm_compute; reflexivity|]. apply (f_equal (app p)). reflexivity.
  - vm_compute. reflexivity.
Qed.
Print Assumptions C37_usage_text.

(** ** what does not *)

(** The customization string of "-cshake-128" is used as the function name (N of SP 800-185), which NIST reserves, and the
    customization string is empty: this is what the tool prints ... *)
Theorem C37_cshake128 : forall lg dbg elided w p n s f m, log2_accurate lg -> 0 < n < 2 ^ 31 -> Sp800185.short s ->
  delivers (source_of w f) m ->
  main lg dbg elided w [p; codes "-cshake-128"; decimal n; s; f] = Ok (report (Sp800185.cshake128 (N.to_nat n) s [] m) f).
Proof. exact Proof.Cli.cshake128_ok. Qed.
Print Assumptions C37_cshake128.
Theorem C37_cshake256 : forall lg dbg elided w p n s f m, log2_accurate lg -> 0 < n < 2 ^ 31 -> Sp800185.short s ->
  delivers (source_of w f) m ->
  main lg dbg elided w [p; codes "-cshake-256"; decimal n; s; f] = Ok (report (Sp800185.cshake256 (N.to_nat n) s [] m) f).
Proof. exact Proof.Cli.cshake256_ok. Qed.
Print Assumptions C37_cshake256.

Definition empty_stdin : world := mkWorld (fun _ => NotOpened) (Reads [] false).
Example empty_delivers : delivers (source_of empty_stdin (codes "-")) [].
Proof. exists []. split; [reflexivity|split; [reflexivity|constructor]]. Qed.
Example name128 : Sp800185.cshake128 4 (text "x") [] [] = unhex "3cf37fa0".
Proof. apply (Proof.CShake.via_keccak128 true); [one_span|vm_compute; reflexivity]. Qed.
Example customized128 : Sp800185.cshake128 4 [] (text "x") [] = unhex "9f959f4c".
Proof. apply (Proof.CShake.via_keccak128 true); [one_span|vm_compute; reflexivity]. Qed.
Example name256 : Sp800185.cshake256 4 (text "x") [] [] = unhex "865e2711".
Proof. apply (Proof.CShake.via_keccak256 true); [one_span|vm_compute; reflexivity]. Qed.
Example customized256 : Sp800185.cshake256 4 [] (text "x") [] = unhex "e5e1dfb4".
Proof. apply (Proof.CShake.via_keccak256 true); [one_span|vm_compute; reflexivity]. Qed.
Example x_short : Sp800185.short (text "x").
Proof. split; [constructor; [reflexivity|constructor]|discriminate]. Qed.

(** ... and not what the usage text says. *)
Theorem C37_cshake128_refuted : exists w args out, expected w "-cshake-128" args out /\
  forall lg dbg elided p, log2_accurate lg -> main lg dbg elided w (p :: codes "-cshake-128" :: args) <> Ok out.
Proof.
  exists empty_stdin, [decimal 4; text "x"; codes "-"], (report (unhex "9f959f4c") (codes "-")). split.
  - rewrite <- customized128. change 4%nat with (N.to_nat 4).
    apply (ex_custom _ "-cshake-128" (fun d s m => Sp800185.cshake128 d [] s m)); [|split; reflexivity|apply x_short|apply empty_delivers].
    exact (nth_error_In documented 7 eq_refl).
  - intros lg dbg elided p Hlg. rewrite (C37_cshake128 lg dbg elided empty_stdin p 4 (text "x") (codes "-") [] Hlg);
      [|split; reflexivity|apply x_short|apply empty_delivers].
    change (N.to_nat 4) with 4%nat. rewrite name128. vm_compute. discriminate.
Qed.
Print Assumptions C37_cshake128_refuted.
Theorem C37_cshake256_refuted : exists w args out, expected w "-cshake-256" args out /\
  forall lg dbg elided p, log2_accurate lg -> main lg dbg elided w (p :: codes "-cshake-256" :: args) <> Ok out.
Proof.
  exists empty_stdin, [decimal 4; text "x"; codes "-"], (report (unhex "e5e1dfb4") (codes "-")). split.
  - rewrite <- customized256. change 4%nat with (N.to_nat 4).
    apply (ex_custom _ "-cshake-256" (fun d s m => Sp800185.cshake256 d [] s m)); [|split; reflexivity|apply x_short|apply empty_delivers].
    exact (nth_error_In documented 8 eq_refl).
  - intros lg dbg elided p Hlg. rewrite (C37_cshake256 lg dbg elided empty_stdin p 4 (text "x") (codes "-") [] Hlg);
      [|split; reflexivity|apply x_short|apply empty_delivers].
    change (N.to_nat 4) with 4%nat. rewrite name256. vm_compute. discriminate.
Qed.
Print Assumptions C37_cshake256_refuted.

(** A file that cannot be opened is reported with status 0 and the digest of the empty string ... *)
Theorem C37_not_opened_refuted : forall lg dbg elided w o hash dom p f,
  In (o, File hash dom) documented -> ~ In o Proof.Cli.short_tigers -> source_of w f = NotOpened -> dom [] ->
  main lg dbg elided w [p; codes o; f] = Ok (report (hash []) f).
Proof. exact Proof.Cli.not_opened. Qed.
Print Assumptions C37_not_opened_refuted.
(** ... and one that cannot be read to its end with the digest of what could be read. *)
Theorem C37_read_error_refuted : forall lg dbg elided w o hash dom p f chunks,
  In (o, File hash dom) documented -> ~ In o Proof.Cli.short_tigers -> source_of w f = Reads chunks true ->
  Forall (fun c => bytes_ok c /\ N.of_nat (length c) <= 1024 * 1024) chunks -> dom (concat chunks) ->
  main lg dbg elided w [p; codes o; f] = Ok (report (hash (concat chunks)) f).
Proof. exact Proof.Cli.read_error. Qed.
Print Assumptions C37_read_error_refuted.
(** Errors of files have no effect at all on what is printed, for any arguments. *)
Theorem C37_errors_ignored : forall lg dbg elided w argv,
  main lg dbg elided (mkWorld (fun f => match file w f with NotOpened => Reads [] false | Reads chunks _ => Reads chunks false end)
                              (match stdin w with NotOpened => Reads [] false | Reads chunks _ => Reads chunks false end)) argv =
  main lg dbg elided w argv.
Proof. exact Proof.Cli.main_ignore. Qed.
Print Assumptions C37_errors_ignored.

(** The short Tiger options write out of bounds for every file (see C11). *)
Theorem C37_tiger_refuted : forall lg dbg elided w o p f m, In o Proof.Cli.short_tigers -> delivers (source_of w f) m ->
  main lg dbg elided w [p; codes o; f] = Ub OobWrite.
Proof. exact Proof.Cli.tigers_fail. Qed.
Print Assumptions C37_tiger_refuted.

(** A length that does not fit an int leaves main as an exception (std::terminate) instead of printing the usage text. *)
Theorem C37_large_length_refuted : forall lg dbg elided w o u p n rest,
  In (o, u) documented -> (2 <= arguments u)%nat -> length (decimal n :: rest) = arguments u -> 2 ^ 31 <= n ->
  main lg dbg elided w (p :: codes o :: decimal n :: rest) = Throw OutOfRange.
Proof. exact Proof.Cli.too_large_ok. Qed.
Print Assumptions C37_large_length_refuted.
(** The digest of length 0 is printed by reading front() of an empty vector. *)
Theorem C37_zero_length_refuted : forall lg dbg elided w p f m, delivers (source_of w f) m ->
  main lg dbg elided w [p; codes "-shake-128"; codes "0"; f] = Ub EmptyFront.
Proof. exact Proof.Cli.empty_fails. Qed.
Print Assumptions C37_zero_length_refuted.
(** The length in bits of a TupleHash digest is computed in int. *)
Theorem C37_tuple128_refuted : forall lg dbg elided w p n s f m, elided = true -> log2_accurate lg -> 2 ^ 28 <= n < 2 ^ 31 ->
  Sp800185.short s -> Sp800185.short m -> delivers (source_of w f) m ->
  main lg dbg elided w [p; codes "-tuple-hash-128"; decimal n; s; f] = Ub SignedOverflow.
Proof. exact Proof.Cli.tuple128_fails. Qed.
Print Assumptions C37_tuple128_refuted.
Theorem C37_tuple256_refuted : forall lg dbg elided w p n s f m, elided = true -> log2_accurate lg -> 2 ^ 28 <= n < 2 ^ 31 ->
  Sp800185.short s -> Sp800185.short m -> delivers (source_of w f) m ->
  main lg dbg elided w [p; codes "-tuple-hash-256"; decimal n; s; f] = Ub SignedOverflow.
Proof. exact Proof.Cli.tuple256_fails. Qed.
Print Assumptions C37_tuple256_refuted.

(** ** cases *)

(** "abc" in a file, read as "a", then nothing, then "bc"; standard input is empty *)
Definition disk : world := mkWorld (fun f => if list_eq_dec N.eq_dec f (codes "abc.txt") then Reads [text "a"; []; text "bc"] false else NotOpened)
  (Reads [] false).
Example C37_case_delivers : delivers (source_of disk (codes "abc.txt")) (text "abc").
Proof.
  exists [text "a"; []; text "bc"]. split; [reflexivity|split; [reflexivity|]].
  repeat (apply Forall_cons; [split; [refine (proj1 (span_okb_ok _ _)); reflexivity|apply N.leb_le; reflexivity]|]). apply Forall_nil.
Qed.
Example C37_case_abc : forall lg dbg elided p, main lg dbg elided disk [p; codes "-sha1"; codes "abc.txt"] =
  Ok (mkOutput (codes "a9993e364706816aba3e25717850c26c9cd0d89d  abc.txt" ++ [10]) 0).
Proof.
  intros. destruct dbg, elided; vm_compute; reflexivity.
Qed.
Example C37_case_run : forall lg, main lg true true disk [text "hash"; codes "-crc-32"; codes "abc.txt"] =
  Ok (mkOutput (codes "352441c2  abc.txt" ++ [10]) 0).
Proof. intros. vm_compute. reflexivity. Qed.
Example C37_case_stdin : forall lg, main lg true false disk [text "hash"; codes "-md5"; codes "-"] =
  Ok (mkOutput (codes "d41d8cd98f00b204e9800998ecf8427e  -" ++ [10]) 0).
Proof. intros. vm_compute. reflexivity. Qed.
(** no such file *)
Example C37_case_not_opened : forall lg, main lg true true disk [text "hash"; codes "-md5"; codes "abd.txt"] =
  Ok (mkOutput (codes "d41d8cd98f00b204e9800998ecf8427e  abd.txt" ++ [10]) 0).
Proof. intros. vm_compute. reflexivity. Qed.
Example C37_case_decimal : decimal 1048576 = codes "1048576" /\ decimal 0 = codes "0".
Proof. split; reflexivity. Qed.
Example C37_case_unusable : unusable [codes "-sha1"] /\ unusable [codes "-sha0"; codes "abc.txt"] /\ ~ unusable [codes "-sha1"; codes "abc.txt"].
Proof.
  split; [|split].
  - intros s u H E. unfold documented in H. repeat (destruct H as [H|H]; [injection H as <- <-; discriminate|]). destruct H.
  - intros s u H E. unfold documented in H. repeat (destruct H as [H|H]; [injection H as <- <-; discriminate|]). destruct H.
  - intros H. apply (H "-sha1"%string (File Spec.Sha1.sha1 always)); [exact (nth_error_In documented 20 eq_refl)|reflexivity|reflexivity].
Qed.
