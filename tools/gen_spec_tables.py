#!/usr/bin/env python3
"""Write the substitution tables used by the specifications.

Nothing here reads /repo: every table is produced by the procedure its designers published.
  Spec/TigerSbox.v : Anderson & Biham's generator (Tiger with evolving tables, 5 passes)
  MD2 PI_SUBST     : shuffle driven by the decimal digits of pi (checked against Spec/Md2.v)
"""
import os, re, struct

SPEC = os.path.join(os.path.dirname(__file__), '..', 'rocq', 'theories', 'Spec')
M = (1 << 64) - 1

def tiger_compress(x, st, T):
    word = lambda sb, i: sum(T[sb * 256 + i][k] << (8 * k) for k in range(8))
    a, b, c = st
    t = 0
    for mul in (5, 7, 9):
        for i in range(8):
            c ^= x[i]
            B = [(c >> (8 * k)) & 255 for k in range(8)]
            a = (a - (word(0, B[0]) ^ word(1, B[2]) ^ word(2, B[4]) ^ word(3, B[6]))) & M
            b = (b + (word(3, B[1]) ^ word(2, B[3]) ^ word(1, B[5]) ^ word(0, B[7]))) * mul & M
            a, b, c = b, c, a
        x = list(x)
        n = lambda v: v ^ M
        x[0] = (x[0] - (x[7] ^ 0xA5A5A5A5A5A5A5A5)) & M
        x[1] ^= x[0]
        x[2] = (x[2] + x[1]) & M
        x[3] = (x[3] - (x[2] ^ (n(x[1]) << 19 & M))) & M
        x[4] ^= x[3]
        x[5] = (x[5] + x[4]) & M
        x[6] = (x[6] - (x[5] ^ (n(x[4]) >> 23))) & M
        x[7] ^= x[6]
        x[0] = (x[0] + x[7]) & M
        x[1] = (x[1] - (x[0] ^ (n(x[7]) << 19 & M))) & M
        x[2] ^= x[1]
        x[3] = (x[3] + x[2]) & M
        x[4] = (x[4] - (x[3] ^ (n(x[2]) >> 23))) & M
        x[5] ^= x[4]
        x[6] = (x[6] + x[5]) & M
        x[7] = (x[7] - (x[6] ^ 0x0123456789ABCDEF)) & M
    return [a ^ st[0], (b - st[1]) & M, (c + st[2]) & M]

def tiger_sbox():
    text = b'Tiger - A Fast New Hash Function, by Ross Anderson and Eli Biham'
    st = [0x0123456789ABCDEF, 0xFEDCBA9876543210, 0xF096A5B4C3B2E187]
    x = list(struct.unpack('<8Q', text))
    T = [[i & 255] * 8 for i in range(1024)]
    abc = 2
    for _ in range(5):
        for i in range(256):
            for sb in range(0, 1024, 256):
                abc += 1
                if abc == 3:
                    abc = 0
                    st = tiger_compress(x, st, T)
                for col in range(8):
                    v = (st[abc] >> (8 * col)) & 255
                    T[sb + i][col], T[sb + v][col] = T[sb + v][col], T[sb + i][col]
    return [sum(t[k] << (8 * k) for k in range(8)) for t in T]

def pi_digits(n):
    """first n decimal digits of pi, starting with 3 (Machin's formula)"""
    one = 10 ** (n + 10)
    def arctan_inv(k):
        s = t = one // k
        i, sign = 1, -1
        while t:
            t //= k * k
            i += 2
            s += sign * (t // i)
            sign = -sign
        return s
    return str(4 * (4 * arctan_inv(5) - arctan_inv(239)))[:n]

def md2_subst():
    d = iter(map(int, pi_digits(2000)))
    def rand(n):
        while True:
            x, y = next(d), 10
            if n > 10: x, y = x * 10 + next(d), 100
            if n > 100: x, y = x * 10 + next(d), 1000
            if x < n * (y // n): return x % n
    s = list(range(256))
    for i in range(2, 257):
        j = rand(i)
        s[j], s[i - 1] = s[i - 1], s[j]
    return s

if __name__ == '__main__':
    box = tiger_sbox()
    o = ['(** The Tiger S-boxes t1..t4, written by tools/gen_spec_tables.py with the generator of',
         '    Anderson and Biham (not copied from the code under verification). *)',
         'From Coq Require Import List NArith.', 'Import ListNotations.', 'Local Open Scope N_scope.']
    for k in range(4):
        o.append('')
        o.append('Definition t%d : list N := [' % (k + 1))
        for r in range(0, 256, 4):
            o.append('  ' + '; '.join('0x%016x' % v for v in box[256 * k + r:256 * k + r + 4]) + (';' if r < 252 else ''))
        o.append('].')
    open(os.path.join(SPEC, 'TigerSbox.v'), 'w').write('\n'.join(o) + '\n')
    text = open(os.path.join(SPEC, 'Md2.v')).read()
    lit = [int(x) for x in re.findall(r'\d+', text[text.index('[41'):text.index('].')])]
    assert lit == md2_subst(), 'MD2 table'
