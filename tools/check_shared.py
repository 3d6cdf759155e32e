#!/usr/bin/env python3
"""Check that the code which the model describes once is textually the same in every header that has it.

For every header of /repo/src the members below are cut out by matching braces, comments are removed, blanks are
normalised and the name of the class is replaced by X.  The members must then fall into the groups listed here; a
header that differs is reported.  Usage: check_shared.py [/repo/src]"""
import os
import re
import sys
from collections import defaultdict

SRC = sys.argv[1] if len(sys.argv) > 1 else "/repo/src"

HEADERS = sorted(f for f in os.listdir(SRC) if f.endswith(".h"))


def strip(t):
    t = re.sub(r"//[^\n]*", "", t)
    t = re.sub(r"/\*.*?\*/", "", t, flags=re.S)
    return re.sub(r"\s+", " ", t).strip()


def braces(t, i):
    """the text from i through the brace that closes the first one after i"""
    j = t.index("{", i)
    depth = 0
    for k in range(j, len(t)):
        if t[k] == "{":
            depth += 1
        elif t[k] == "}":
            depth -= 1
            if depth == 0:
                return t[i:k + 1]
    raise ValueError


# member -> regular expression for its start (the out-of-class definition or the class)
MEMBERS = {
    "Buffer": r"template <typename T, IndexType N>\s*class Buffer\b",
    "Uint128": r"class Uint128\b",
    "ror": r"constexpr R ror\(",
    "rotl": r"constexpr T rotl\(",
    "rotr": r"constexpr T rotr\(",
    "Loader": r"constexpr T operator\[\]\(const IndexType idx\) const\s*{",
    "operator!=": r"friend (?:constexpr )?bool operator!=\(",
    "finalize": r"[^\n]*::finalize\(\)\s*{",
    "addDataImpl": r"[^\n]*::addDataImpl\(const Span<const Byte> data\)\s*{",
    "toString": r"[^\n]*::toString\(\) const\s*{",
    "toVector": r"[^\n]*::toVector\(\) const\s*{",
    "operator T": r"[^\n]*::operator T\(\) const[^\n]*\s*{",
    "addData(Span<const Byte>)": r"[^\n]*::addData\(const Span<const Byte> inData\)\s*{",
    "addData(const void*, size_t)": r"[^\n]*::addData\(const void \*ptr, const std::size_t length\)\s*{",
    "addData(const Byte (&)[N])": r"[^\n]*::addData\(const Byte \(&array\)\[N\]\)\s*{",
    "addData(const T (&)[N])": r"[^\n]*::addData\(const T \(&array\)\[N\]\)\s*{",
    "addData(Span<T>)": r"[^\n]*::addData\(const Span<T> inSpan\)\s*{",
    "std::hash": r"struct hash<",
}


def member(text, rx):
    m = re.search(rx, text)
    if not m:
        return None
    return braces(text, m.start())


def normal(header, code):
    code = strip(code)
    # qualified and unqualified names of the class
    names = set(re.findall(r"(\w+)(?:<[^<>]*>)?::(?:finalize|toString|toVector|addDataImpl|addData|operator)\b", code))
    names |= set(re.findall(r"operator!=\(const (\w+)", code)) | set(re.findall(r"hash<Chocobo1::(\w+)>", code))
    for n in names:
        code = re.sub(r"\b%s(?:<[\w, ]*>)?(?!\w)" % n, "X", code)
    for prefix in ("inline ", "typename ", "template <> ", "template <int V, int D> ", "template <int R, int P> ",
                   "constexpr ", "CONSTEXPR_CPP17_CHOCOBO1_HASH ", "noexcept "):
        code = code.replace(prefix, "")
    return code.replace("Chocobo1::X", "X")


SHA2_32 = "sha2_224 sha2_256"
SHA2_64 = "sha2_384 sha2_512 sha2_512_224 sha2_512_256"
RIPEMD = "ripemd_128 ripemd_160 ripemd_256 ripemd_320"
BLOCKS = "blake1_224 blake1_256 blake1_384 blake1_512 has_160 md2 md4 md5 " + RIPEMD + " sha1 " + SHA2_32 + " " + SHA2_64 + \
    " siphash sm3 tiger whirlpool"
ARRAYS = BLOCKS + " blake2 blake2s crc_32 fnv"

# member -> the groups of headers with the same text; a header that is not listed must be alone (and has its own model)
EXPECTED = {
    "Buffer": [BLOCKS + " blake2 blake2s sha3"],
    "Uint128": ["blake1_384 blake1_512 blake2 whirlpool " + SHA2_64],
    "ror": [ARRAYS + " cshake sha3 tuple_hash"],
    "rotl": ["has_160 md4 md5 sha1 sha3 siphash sm3 " + RIPEMD],
    "rotr": ["blake1_224 blake1_256 blake1_384 blake1_512 blake2 blake2s tiger " + SHA2_32 + " " + SHA2_64],
    "Loader": ["blake2s crc_32 has_160 md4 md5 " + RIPEMD, "blake1_384 blake1_512 whirlpool " + SHA2_64,
               "blake1_224 blake1_256 sha1 sm3 " + SHA2_32, "blake2 sha3 siphash tiger"],
    "operator!=": [ARRAYS + " cshake sha3 tuple_hash"],
    "finalize": ["has_160 md4 md5 " + RIPEMD, "sha1 sm3 " + SHA2_32, SHA2_64, "blake2 blake2s"],
    "addDataImpl": [SHA2_32, SHA2_64],
    "toString": [ARRAYS],
    "toVector": [ARRAYS],
    "operator T": [ARRAYS, "cshake sha3 tuple_hash"],
    "addData(Span<const Byte>)": [BLOCKS, "crc_32 cshake fnv", "blake2 blake2s"],
    "addData(const void*, size_t)": [ARRAYS + " cshake sha3"],
    "addData(const Byte (&)[N])": [ARRAYS + " cshake sha3"],
    "addData(const T (&)[N])": [ARRAYS + " cshake sha3"],
    "addData(Span<T>)": [ARRAYS + " cshake sha3"],
    "std::hash": [" ".join(x for x in ARRAYS.split() if x not in ("fnv", "siphash", "tiger"))],
}


def main():
    code = {h: open(os.path.join(SRC, h)).read() for h in HEADERS}
    bad = 0
    for name, rx in MEMBERS.items():
        groups = defaultdict(list)
        for h in HEADERS:
            c = member(code[h], rx)
            if c is not None:
                groups[normal(h, c)].append(h[:-2])
        found = sorted(sorted(g) for g in groups.values() if len(g) > 1)
        expected = sorted(sorted(g.split()) for g in EXPECTED[name])
        ok = found == expected
        bad += not ok
        print("%-4s %s: %s" % ("ok" if ok else "BAD", name, ", ".join(str(len(g)) for g in found)))
        if not ok:
            for g in found:
                print("       found:", " ".join(g))
    # sha3.h has the shared addData with R for BLOCK_SIZE
    one = normal("sha1.h", member(code["sha1.h"], MEMBERS["addData(Span<const Byte>)"])).replace("BLOCK_SIZE", "R")
    other = normal("sha3.h", member(code["sha3.h"], MEMBERS["addData(Span<const Byte>)"]))
    print("ok   addData of sha3.h" if one == other else "BAD  addData of sha3.h")
    # tiger.h has the little-endian finalize with another first byte
    one = normal("md5.h", member(code["md5.h"], MEMBERS["finalize"])).replace("(1 << 7)", "((V == 1) ? 1 : (1 << 7))", 1)
    other = normal("tiger.h", member(code["tiger.h"], MEMBERS["finalize"]))
    print("ok   finalize of tiger.h" if one == other else "BAD  finalize of tiger.h")
    return bad


if __name__ == "__main__":
    sys.exit(main())
