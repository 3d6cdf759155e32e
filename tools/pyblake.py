"""A plain implementation of BLAKE (version 1.2), used only to produce known answers."""
SIGMA = [[0,1,2,3,4,5,6,7,8,9,10,11,12,13,14,15],[14,10,4,8,9,15,13,6,1,12,0,2,11,7,5,3],
 [11,8,12,0,5,2,15,13,10,14,3,6,7,1,9,4],[7,9,3,1,13,12,11,14,2,6,5,10,4,0,15,8],
 [9,0,5,7,2,4,10,15,14,1,11,12,6,8,3,13],[2,12,6,10,0,11,8,3,4,13,7,5,15,14,1,9],
 [12,5,1,15,14,13,4,10,0,7,6,3,9,2,8,11],[13,11,7,14,12,1,3,9,5,0,15,4,8,6,2,10],
 [6,15,14,9,11,3,0,8,12,2,13,7,1,4,10,5],[10,2,8,4,7,6,1,5,15,11,9,14,3,12,13,0]]
def pi_words(n, bits):
    # Machin's formula
    prec = n*bits + 64
    def arctan_inv(x):
        t = (1 << prec)//x; s = t; k = 3; sign = -1
        while t:
            t //= x*x; s += sign*(t//k); sign = -sign; k += 2
        return s
    pi = 4*(4*arctan_inv(5) - arctan_inv(239))
    frac = pi & ((1 << prec) - 1)
    return [(frac >> (prec - bits*(i+1))) & ((1 << bits)-1) for i in range(n)]
IV = {256: [0x6A09E667,0xBB67AE85,0x3C6EF372,0xA54FF53A,0x510E527F,0x9B05688C,0x1F83D9AB,0x5BE0CD19],
 512: [0x6A09E667F3BCC908,0xBB67AE8584CAA73B,0x3C6EF372FE94F82B,0xA54FF53A5F1D36F1,0x510E527FADE682D1,0x9B05688C2B3E6C1F,0x1F83D9ABFB41BD6B,0x5BE0CD19137E2179],
 384: [0xCBBB9D5DC1059ED8,0x629A292A367CD507,0x9159015A3070DD17,0x152FECD8F70E5939,0x67332667FFC00B31,0x8EB44A8768581511,0xDB0C2E0D64F98FA7,0x47B5481DBEFA4FA4]}
IV[224] = [x & 0xffffffff for x in IV[384]]
def blake(bits, msg):
    w = 32 if bits < 384 else 64
    nb = w//8; B = 16*nb; mask = (1 << w)-1
    rounds, rot = (14, (16,12,8,7)) if w == 32 else (16, (32,25,16,11))
    C = pi_words(16, w)
    ror = lambda x, n: ((x >> n) | (x << (w-n))) & mask
    data = bytearray(msg) + b'\x80'
    while len(data) % B != B - 2*nb: data.append(0)
    if bits in (256, 512): data[-1] |= 1
    data += (8*len(msg)).to_bytes(2*nb, 'big')
    h = list(IV[bits])
    for i in range(len(data)//B):
        m = [int.from_bytes(data[B*i+nb*j:B*i+nb*j+nb], 'big') for j in range(16)]
        t = 0 if len(msg) <= B*i else 8*min(len(msg), B*(i+1))
        v = h + C[:8]
        v[12] ^= t & mask; v[13] ^= t & mask; v[14] ^= t >> w; v[15] ^= t >> w
        for r in range(rounds):
            s = SIGMA[r % 10]
            for g, (a,b,c,d) in enumerate([(0,4,8,12),(1,5,9,13),(2,6,10,14),(3,7,11,15),(0,5,10,15),(1,6,11,12),(2,7,8,13),(3,4,9,14)]):
                for half in (0,1):
                    j, k = s[2*g+half], s[2*g+1-half]
                    v[a] = (v[a] + v[b] + (m[j] ^ C[k])) & mask
                    v[d] = ror(v[d]^v[a], rot[2*half]); v[c] = (v[c]+v[d]) & mask
                    v[b] = ror(v[b]^v[c], rot[2*half+1])
        h = [h[j]^v[j]^v[j+8] for j in range(8)]
    return b''.join(x.to_bytes(nb,'big') for x in h)[:bits//8].hex()
if __name__ == '__main__':
    import re
    F = 'The quick brown fox jumps over the lazy dog'
    for bits in (224,256,384,512):
        t = open('/repo/tests/test_blake1_%d.cpp' % bits).read()
        for msg in (b'\0', b'\0'*(72 if bits<384 else 144), F.encode(), F.encode()*3):
            print(bits, len(msg), blake(bits, msg) in t)
