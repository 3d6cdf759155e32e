(** What the usage text of the command line tool promises, and the world the tool runs in. *)
From Coq Require Import String Ascii List NArith Arith Bool.
From Verif.Spec Require Import Words Client.
From Verif.Spec Require Blake Blake2 Crc32 Fnv Has160 Keccak Md2 Md4 Md5 Ripemd Sha1 Sha2 SipHash Sm3 Sp800185 Tiger Whirlpool.
Import ListNotations.
Local Open Scope N_scope.

(** the ASCII codes of a literal *)
Fixpoint codes (s : string) : list N :=
  match s with
  | EmptyString => []
  | String c r => N_of_ascii c :: codes r
  end.

(** ** the world: what opening a file, and reading it or standard input, gives *)

(** the results of successive reads up to the end of the file or an error *)
Inductive source :=
| NotOpened
| Reads (chunks : list (list N)) (failed : bool).
Record world := mkWorld { file : list N -> source; stdin : source }.

(** "- (stdin)" *)
Definition source_of (w : world) (name : list N) : source :=
  if list_eq_dec N.eq_dec name (codes "-") then stdin w else file w name.

(** the bytes of a file that was opened and read to its end, whatever the sizes of the reads up to 1 MiB *)
Definition delivers (s : source) (m : list N) : Prop :=
  exists chunks, s = Reads chunks false /\ concat chunks = m /\
    Forall (fun c => bytes_ok c /\ N.of_nat (length c) <= 1024 * 1024) chunks.

(** what was printed, and the exit status *)
Record output := mkOutput { stdout : list N; status : N }.
Definition report (digest name : list N) : output :=
  mkOutput (hex_text digest ++ codes "  " ++ name ++ [10]) 0.

(** ** the options *)
Inductive usage :=
| File (hash : list N -> list N) (dom : list N -> Prop)
| Sized (hash : nat -> list N -> list N)                    (* <Digest length (bytes)> *)
| Customized (hash : nat -> list N -> list N -> list N).    (* <Digest length (bytes)> <Customization string> *)

Definition always (m : list N) : Prop := True.

(** The function an option stands for.  BLAKE is limited to the messages that the library hashes correctly (C13), Whirlpool
    to those it is defined for; "-siphash" is SipHash-2-4 with a key of zeros. *)
Definition documented : list (string * usage) :=
  [("-blake1-224", File Blake.blake224 (Blake.tail_fits 4)); ("-blake1-256", File Blake.blake256 (Blake.tail_fits 4));
   ("-blake1-384", File Blake.blake384 (Blake.tail_fits 8)); ("-blake1-512", File Blake.blake512 (Blake.tail_fits 8));
   ("-blake2", File Blake2.blake2b always); ("-blake2s", File Blake2.blake2s always);
   ("-crc-32", File (fun m => be_bytes 4 (Crc32.crc32 m)) always);
   ("-cshake-128", Customized (fun d s m => Sp800185.cshake128 d [] s m));
   ("-cshake-256", Customized (fun d s m => Sp800185.cshake256 d [] s m));
   ("-fnv32_1a", File (fun m => be_bytes 4 (Fnv.fnv1a 32 m)) always);
   ("-fnv64_1a", File (fun m => be_bytes 8 (Fnv.fnv1a 64 m)) always);
   ("-has160", File Has160.has160 always);
   ("-md2", File Md2.md2 always); ("-md4", File Md4.md4 always); ("-md5", File Md5.md5 always);
   ("-ripemd-128", File Ripemd.ripemd128 always); ("-ripemd-160", File Ripemd.ripemd160 always);
   ("-ripemd-256", File Ripemd.ripemd256 always); ("-ripemd-320", File Ripemd.ripemd320 always);
   ("-siphash", File (fun m => be_bytes 8 (SipHash.siphash 2 4 (repeat 0 16) m)) always);
   ("-sha1", File Sha1.sha1 always);
   ("-sha2-224", File Sha2.sha224 always); ("-sha2-256", File Sha2.sha256 always); ("-sha2-384", File Sha2.sha384 always);
   ("-sha2-512", File Sha2.sha512 always); ("-sha2-512-224", File Sha2.sha512_224 always); ("-sha2-512-256", File Sha2.sha512_256 always);
   ("-sha3-224", File Keccak.sha3_224 always); ("-sha3-256", File Keccak.sha3_256 always);
   ("-sha3-384", File Keccak.sha3_384 always); ("-sha3-512", File Keccak.sha3_512 always);
   ("-shake-128", Sized Keccak.shake128); ("-shake-256", Sized Keccak.shake256);
   ("-sm3", File Sm3.sm3 always);
   ("-tiger1-128", File (Tiger.truncated 16 Tiger.tiger) always); ("-tiger1-160", File (Tiger.truncated 20 Tiger.tiger) always);
   ("-tiger1-192", File Tiger.tiger always);
   ("-tiger2-128", File (Tiger.truncated 16 Tiger.tiger2) always); ("-tiger2-160", File (Tiger.truncated 20 Tiger.tiger2) always);
   ("-tiger2-192", File Tiger.tiger2 always);
   ("-tuple-hash-128", Customized (fun d s m => Sp800185.tuplehash128 d s [m]));
   ("-tuple-hash-256", Customized (fun d s m => Sp800185.tuplehash256 d s [m]));
   ("-whirlpool", File Whirlpool.whirlpool Whirlpool.short_enough)]%string.

(** decimal notation *)
Fixpoint digits (fuel : nat) (n : N) : list N :=
  match fuel with
  | O => []
  | S fuel => if n <? 10 then [48 + n] else digits fuel (n / 10) ++ [48 + n mod 10]
  end.
Definition decimal (n : N) : list N := digits (S (N.size_nat n)) n.

(** the promise; a digest has at least one byte and at most INT_MAX of them *)
Inductive expected (w : world) : string -> list (list N) -> output -> Prop :=
| ex_file o hash dom f m : In (o, File hash dom) documented -> delivers (source_of w f) m -> dom m ->
    expected w o [f] (report (hash m) f)
| ex_sized o hash n f m : In (o, Sized hash) documented -> 0 < n < 2 ^ 31 -> delivers (source_of w f) m ->
    expected w o [decimal n; f] (report (hash (N.to_nat n) m) f)
| ex_custom o hash n s f m : In (o, Customized hash) documented -> 0 < n < 2 ^ 31 -> bytes_ok s -> delivers (source_of w f) m ->
    expected w o [decimal n; s; f] (report (hash (N.to_nat n) s m) f).

(** the number of arguments after the option *)
Definition arguments (u : usage) : nat := match u with File _ _ => 1 | Sized _ => 2 | Customized _ => 3 end.
(** calls that fit no line of the usage text *)
Definition unusable (args : list (list N)) : Prop :=
  match args with
  | [] => True
  | o :: rest => forall s u, In (s, u) documented -> codes s = o -> length rest <> arguments u
  end.
