(** Model of src/program/main.cpp: the command line tool. *)
From Coq Require Import String Ascii List NArith ZArith Arith Bool.
From Verif.Base Require Import Res CWord.
From Verif.Spec Require Import Cli.
From Verif.Model Require Import Buffer Stream Api ObjApi Library.
From Verif.Model Require Keccak CShake TupleHash SipHash.
Import ListNotations.
Local Open Scope N_scope.

(** enum class Hash      src/program/main.cpp:55-77 *)
Inductive Hash :=
| H_Blake1_224 | H_Blake1_256 | H_Blake1_384 | H_Blake1_512 | H_Blake2 | H_Blake2s | H_Crc_32 | H_Cshake_128
| H_Cshake_256 | H_Fnv32_1a | H_Fnv64_1a | H_Has160 | H_Md2 | H_Md4 | H_Md5 | H_Ripemd_128 | H_Ripemd_160
| H_Ripemd_256 | H_Ripemd_320 | H_Siphash | H_Sha1 | H_Sha2_224 | H_Sha2_256 | H_Sha2_384 | H_Sha2_512
| H_Sha2_512_224 | H_Sha2_512_256 | H_Sha3_224 | H_Sha3_256 | H_Sha3_384 | H_Sha3_512 | H_Shake_128 | H_Shake_256
| H_Sm3 | H_Tiger1_128 | H_Tiger1_160 | H_Tiger1_192 | H_Tiger2_128 | H_Tiger2_160 | H_Tiger2_192 | H_Tuple_hash_128
| H_Tuple_hash_256 | H_Whirlpool | H_Invalid.

(** the enumerators in their order, by value *)
Definition enumerators : list Hash :=
  [H_Blake1_224; H_Blake1_256; H_Blake1_384; H_Blake1_512; H_Blake2; H_Blake2s; H_Crc_32; H_Cshake_128; H_Cshake_256;
   H_Fnv32_1a; H_Fnv64_1a; H_Has160; H_Md2; H_Md4; H_Md5; H_Ripemd_128; H_Ripemd_160; H_Ripemd_256; H_Ripemd_320;
   H_Siphash; H_Sha1; H_Sha2_224; H_Sha2_256; H_Sha2_384; H_Sha2_512; H_Sha2_512_224; H_Sha2_512_256; H_Sha3_224;
   H_Sha3_256; H_Sha3_384; H_Sha3_512; H_Shake_128; H_Shake_256; H_Sm3; H_Tiger1_128; H_Tiger1_160; H_Tiger1_192;
   H_Tiger2_128; H_Tiger2_160; H_Tiger2_192; H_Tuple_hash_128; H_Tuple_hash_256; H_Whirlpool; H_Invalid].

(** names      src/program/main.cpp:139-159 *)
Definition names : list (list N) := map codes
  ["-blake1-224"; "-blake1-256"; "-blake1-384"; "-blake1-512"; "-blake2"; "-blake2s"; "-crc-32"; "-cshake-128";
   "-cshake-256"; "-fnv32_1a"; "-fnv64_1a"; "-has160"; "-md2"; "-md4"; "-md5"; "-ripemd-128"; "-ripemd-160";
   "-ripemd-256"; "-ripemd-320"; "-siphash"; "-sha1"; "-sha2-224"; "-sha2-256"; "-sha2-384"; "-sha2-512";
   "-sha2-512-224"; "-sha2-512-256"; "-sha3-224"; "-sha3-256"; "-sha3-384"; "-sha3-512"; "-shake-128"; "-shake-256";
   "-sm3"; "-tiger1-128"; "-tiger1-160"; "-tiger1-192"; "-tiger2-128"; "-tiger2-160"; "-tiger2-192"; "-tuple-hash-128";
   "-tuple-hash-256"; "-whirlpool"]%string.

Definition str_eqb (a b : list N) : bool := if list_eq_dec N.eq_dec a b then true else false.

(** getHash: for (int i = 0; i < ARRAY_LENGTH(names); ++i), static_cast<Hash>(i)      src/program/main.cpp:137-167 *)
Fixpoint getHash_from (hash : list N) (i : nat) (rest : list (list N)) : Hash :=
  match rest with
  | [] => H_Invalid
  | name :: rest => if str_eqb hash name then nth i enumerators H_Invalid else getHash_from hash (Datatypes.S i) rest
  end.
Definition getHash (hash : list N) : Hash := getHash_from hash 0 names.

(** std::stoi: std::strtol with base 10 (blanks, a sign, digits; what follows is ignored), and the checks for no digits and for
    values that are not an int.  The locale is "C". *)
Definition isspace (c : N) : bool := (c =? 32) || ((9 <=? c) && (c <=? 13)).
Definition isdigit (c : N) : bool := (48 <=? c) && (c <=? 57).
Fixpoint skip_spaces (s : list N) : list N :=
  match s with
  | c :: r => if isspace c then skip_spaces r else s
  | [] => []
  end.
(** the value of the leading digits, or None if there are none *)
Fixpoint leading (s : list N) (acc : option Z) : option Z :=
  match s with
  | c :: r => if isdigit c then leading r (Some (match acc with Some v => v * 10 | None => 0 end + Z.of_N (c - 48))%Z) else acc
  | [] => acc
  end.
Definition stoi (s : list N) : res Z :=
  let s := skip_spaces s in
  let '(negative, s) := match s with c :: r => if c =? 45 then (true, r) else if c =? 43 then (false, r) else (false, s) | [] => (false, s) end in
  match leading s None with
  | None => Throw InvalidArgument
  | Some v =>
      let v := if negative then (- v)%Z else v in
      if ((- 2 ^ 31 <=? v) && (v <? 2 ^ 31))%Z then Ok v else Throw OutOfRange
  end.

(** classes with a default constructor, and SHAKE with its length: their implicit move constructors copy *)
Definition plain_obj (C : HashClass) : ObjClass :=
  value_class (fun _ : unit => Ok (c_new C)) (c_add C) (c_finalize C) (fun x => Ok (c_reset C x)) (c_array C).
Definition shake_obj (C : HashClass) (construct : Z -> res (Obj C)) : ObjClass :=
  value_class construct (c_add C) (c_finalize C) (fun x => Ok (c_reset C x)) (c_array C).

(** std::string literals with escape sequences *)
Fixpoint literal (s : string) : list N :=
  match s with
  | EmptyString => []
  | String "\"%char (String "n"%char r) => 10 :: literal r
  | String "\"%char (String "t"%char r) => 9 :: literal r
  | String c r => N_of_ascii c :: literal r
  end.

(** printUsage      src/program/main.cpp:106-135; adjacent literals of the source, in order *)
Definition printUsage (name : list N) : list N :=
  literal "Usage: "%string ++ name ++ literal " <HASH> <FILE | - (stdin)>\n"%string ++ literal "  https://github.com/Chocobo1/Hash \n"%string ++
  flat_map literal
  ["\n";
   "Available HASH:\n";
   "  -blake1-224"; "\t -blake1-256"; "\t -blake1-384"; "\t -blake1-512\n";
   "  -blake2"; "\t -blake2s\n";
   "  -crc-32\n";
   "  -cshake-128 <Digest length (bytes)> <Customization string>\n";
   "  -cshake-256 <Digest length (bytes)> <Customization string>\n";
   "  -fnv32_1a"; "\t -fnv64_1a\n";
   "  -has160\n";
   "  -md2"; "\t\t -md4"; "\t\t -md5\n";
   "  -ripemd-128"; "\t -ripemd-160"; "\t -ripemd-256"; "\t -ripemd-320\n";
   "  -siphash\n";
   "  -sha1\n";
   "  -sha2-224"; "\t -sha2-256"; "\t -sha2-384"; "\t -sha2-512"; "\t -sha2-512-224"; "\t -sha2-512-256\n";
   "  -sha3-224"; "\t -sha3-256"; "\t -sha3-384"; "\t -sha3-512\n";
   "  -shake-128 <Digest length (bytes)>\n";
   "  -shake-256 <Digest length (bytes)>\n";
   "  -sm3\n";
   "  -tiger1-128"; "\t -tiger1-160"; "\t -tiger1-192\n";
   "  -tiger2-128"; "\t -tiger2-160"; "\t -tiger2-192\n";
   "  -tuple-hash-128 <Digest length (bytes)> <Customization string>\n";
   "  -tuple-hash-256 <Digest length (bytes)> <Customization string>\n";
   "  -whirlpool\n"]%string.

(** argv[i] *)
Definition argument (argv : list (list N)) (i : nat) : list N := nth i argv [].

Section Program.
  (** std::log2; build mode; whether the compiler elides the move of the object into the parameter of the lambdas, which
      C++14 permits but does not demand; the world *)
  Variables (lg : N -> N) (dbg elided : bool) (w : world).

  (** the object parameter of the lambdas *)
  Definition parameter (C : ObjClass) (a : Args C) : res (OObj C) :=
    let! x := oc_construct C a in
    Ok (if elided then x else fst (oc_move C x)).

  (** printf("%s  %s\n", hash.finalize().toString().c_str(), filename.c_str()) *)
  Definition print (C : ObjClass) (filename : list N) (x : OObj C) : res (option (list N)) :=
    let! x := oc_finalize C x in
    let! d := oc_vector C x in
    let! s := to_string d in
    Ok (Some (s ++ [32; 32] ++ filename ++ [10])).

  (** readNPrint: while good(), read() and addData of what was read; a stream that could not be opened is not good(), and one
      whose end or an error was met stops being so      src/program/main.cpp:171-188.  addData(pointer, length) is addData
      of the bytes (C39).  Files opened with and without std::ios_base::binary are the same, as in POSIX. *)
  Definition readNPrint (C : ObjClass) (a : Args C) (filename : list N) : res (option (list N)) :=
    let! x := parameter C a in
    let! x := match source_of w filename with NotOpened => Ok x | Reads chunks _ => foldM (oc_feed C) chunks x end in
    print C filename x.

  (** readAllNPrint      src/program/main.cpp:190-211 *)
  Definition readAllNPrint (C : ObjClass) (a : Args C) (filename : list N) : res (option (list N)) :=
    let! x := parameter C a in
    let buf := match source_of w filename with NotOpened => [] | Reads chunks _ => concat chunks end in
    let! x := oc_feed C buf x in
    print C filename x.

  (** if (argc != n) return false; readNPrint(...); return true      src/program/main.cpp:215-222 *)
  Definition plain_case (argc : nat) (argv : list (list N)) (n : nat) (C : HashClass) (f : nat) : res (option (list N)) :=
    if negb (argc =? n)%nat then Ok None else readNPrint (plain_obj C) tt (argument argv f).
  (** the cases with digestLength = std::stoi(argv[2]) in a try block      src/program/main.cpp:278-295 *)
  Definition sized_case (argc : nat) (argv : list (list N)) (n : nat) (run : Z -> res (option (list N))) : res (option (list N)) :=
    if negb (argc =? n)%nat then Ok None
    else match stoi (argument argv 2) with
         | Ok digestLength => run digestLength
         | Throw InvalidArgument => Ok None
         | Throw e => Throw e
         | Ub u => Ub u
         end.

  (** runHash: None for false, or what is printed      src/program/main.cpp:169-670 *)
  Definition runHash (hash : Hash) (argc : nat) (argv : list (list N)) : res (option (list N)) :=
    match hash with
    | H_Blake1_224 => plain_case argc argv 3 (class Blake1_224 dbg) 2
    | H_Blake1_256 => plain_case argc argv 3 (class Blake1_256 dbg) 2
    | H_Blake1_384 => plain_case argc argv 3 (class Blake1_384 dbg) 2
    | H_Blake1_512 => plain_case argc argv 3 (class Blake1_512 dbg) 2
    | H_Blake2 => plain_case argc argv 3 (class Blake2 dbg) 2
    | H_Blake2s => plain_case argc argv 3 (class Blake2s dbg) 2
    | H_Crc_32 => plain_case argc argv 3 (class CRC_32 dbg) 2
    | H_Cshake_128 => sized_case argc argv 5 (fun length => readNPrint (CShake.cls128 lg dbg) (length, argument argv 3, []) (argument argv 4))
    | H_Cshake_256 => sized_case argc argv 5 (fun length => readNPrint (CShake.cls256 lg dbg) (length, argument argv 3, []) (argument argv 4))
    | H_Fnv32_1a => plain_case argc argv 3 (class FNV32_1a dbg) 2
    | H_Fnv64_1a => plain_case argc argv 3 (class FNV64_1a dbg) 2
    | H_Has160 => plain_case argc argv 3 (class HAS_160 dbg) 2
    | H_Md2 => plain_case argc argv 3 (class MD2 dbg) 2
    | H_Md4 => plain_case argc argv 3 (class MD4 dbg) 2
    | H_Md5 => plain_case argc argv 3 (class MD5 dbg) 2
    | H_Ripemd_128 => plain_case argc argv 3 (class RIPEMD_128 dbg) 2
    | H_Ripemd_160 => plain_case argc argv 3 (class RIPEMD_160 dbg) 2
    | H_Ripemd_256 => plain_case argc argv 3 (class RIPEMD_256 dbg) 2
    | H_Ripemd_320 => plain_case argc argv 3 (class RIPEMD_320 dbg) 2
    | H_Siphash => if negb (argc =? 3)%nat then Ok None else readNPrint (SipHash.obj_class 2 4 dbg) (repeat 0 16) (argument argv 2)
    | H_Sha1 => plain_case argc argv 3 (class SHA1 dbg) 2
    | H_Sha2_224 => plain_case argc argv 3 (class SHA2_224 dbg) 2
    | H_Sha2_256 => plain_case argc argv 3 (class SHA2_256 dbg) 2
    | H_Sha2_384 => plain_case argc argv 3 (class SHA2_384 dbg) 2
    | H_Sha2_512 => plain_case argc argv 3 (class SHA2_512 dbg) 2
    | H_Sha2_512_224 => plain_case argc argv 3 (class SHA2_512_224 dbg) 2
    | H_Sha2_512_256 => plain_case argc argv 3 (class SHA2_512_256 dbg) 2
    | H_Sha3_224 => plain_case argc argv 3 (class SHA3_224 dbg) 2
    | H_Sha3_256 => plain_case argc argv 3 (class SHA3_256 dbg) 2
    | H_Sha3_384 => plain_case argc argv 3 (class SHA3_384 dbg) 2
    | H_Sha3_512 => plain_case argc argv 3 (class SHA3_512 dbg) 2
    | H_Shake_128 => sized_case argc argv 4 (fun length => readNPrint (shake_obj (Keccak.shake128 dbg 0) (Keccak.construct (1344 / 8))) length (argument argv 3))
    | H_Shake_256 => sized_case argc argv 4 (fun length => readNPrint (shake_obj (Keccak.shake256 dbg 0) (Keccak.construct (1088 / 8))) length (argument argv 3))
    | H_Sm3 => plain_case argc argv 3 (class SM3 dbg) 2
    | H_Tiger1_128 => plain_case argc argv 3 (class Tiger1_128 dbg) 2
    | H_Tiger1_160 => plain_case argc argv 3 (class Tiger1_160 dbg) 2
    | H_Tiger1_192 => plain_case argc argv 3 (class Tiger1_192 dbg) 2
    | H_Tiger2_128 => plain_case argc argv 3 (class Tiger2_128 dbg) 2
    | H_Tiger2_160 => plain_case argc argv 3 (class Tiger2_160 dbg) 2
    | H_Tiger2_192 => plain_case argc argv 3 (class Tiger2_192 dbg) 2
    | H_Tuple_hash_128 => sized_case argc argv 5 (fun length => readAllNPrint (TupleHash.cls128 lg dbg) (length, argument argv 3) (argument argv 4))
    | H_Tuple_hash_256 => sized_case argc argv 5 (fun length => readAllNPrint (TupleHash.cls256 lg dbg) (length, argument argv 3) (argument argv 4))
    | H_Whirlpool => plain_case argc argv 3 (class Whirlpool dbg) 2
    | H_Invalid => Ok None
    end.

  (** main: goToFail prints the usage text and calls exit(0)      src/program/main.cpp:85-104.  An exception that leaves main
      stays one here (std::terminate). *)
  Definition main (argv : list (list N)) : res output :=
    let argc := length argv in
    match argv with
    | [] => Ub NullDeref
    | program :: _ =>
        if (argc <=? 1)%nat then Ok (mkOutput (printUsage program) 0)
        else
          let hash := getHash (argument argv 1) in
          let! ret := runHash hash argc argv in
          match ret with
          | None => Ok (mkOutput (printUsage program) 0)
          | Some text => Ok (mkOutput text 0)
          end
    end.
End Program.
