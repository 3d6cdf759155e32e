#!/usr/bin/env python3
# writes Props/<file>.v for hash classes with the common interface
import sys,os
OUT='/verif/rocq/theories/Props/'
def emit(fname, title, spec_mods, model_mods, proof_mods, entries, extra=''):
    o=['(** %s *)'%title,'From Coq Require Import String List NArith.',
       'From Verif.Base Require Import Res.',
       'From Verif.Spec Require Import Words Client.','From Verif.Model Require Import Api.','From Verif.Tests Require Import Kit.']
    for m in spec_mods: o.append('From Verif.Spec Require %s.'%m)
    for m in model_mods: o.append('From Verif.Model Require %s.'%m)
    o.append('From Verif.Proof Require Api.')
    for m in proof_mods: o.append('From Verif.Proof Require %s.'%m)
    o.append('Import ListNotations.'); o.append('')
    for e in entries:
        pid,name,spec,cls,corr,doc,kats,lead=e[:8]; dom=e[8] if len(e)>8 else None; suf=e[9] if len(e)>9 else ''
        D=dom or '(fun _ => True)'
        o.append('(** %s: any sequence of addData calls, then finalize() and toArray()/toVector(). *)'%doc)
        o.append('Theorem %s_%s%s : forall dbg chunks,'%(pid,name,suf))
        o.append('  Forall span_ok chunks ->')
        if dom: o.append('  %s (concat chunks) ->'%dom)
        o.append('  hash_chunks (%s dbg) chunks = Ok (%s (concat chunks)).'%(cls,spec))
        o.append('Proof. exact (fun dbg chunks H%s => Proof.Api.correct_chunks _ _ _ (%s dbg) chunks H %s). Qed.'%(' Hlen' if dom else '',corr,'Hlen' if dom else 'I'))
        o.append('Print Assumptions %s_%s%s.'%(pid,name,suf)); o.append('')
        o.append('(** every program over any number of such objects (addData, finalize, reset, copies, read-outs) *)')
        o.append('Theorem %s_%s_history%s : forall dbg p os s\','%(pid,name,suf))
        o.append('  arun %s %s p (fun _ => afresh) os s\' ->'%(spec,D))
        o.append('  exists st\', exec (%s dbg) p (fun _ => c_new (%s dbg)) = Ok (os, st\').'%(cls,cls))
        o.append('Proof. exact (fun dbg => Proof.Api.correct_history _ _ _ (%s dbg)). Qed.'%corr)
        o.append('Print Assumptions %s_%s_history%s.'%(pid,name,suf)); o.append('')
        for k,(chunks,hexd) in enumerate(kats):
            cs='['+'; '.join(chunks)+']'
            o.append('Example %s_%s_case%d : let chunks := %s in'%(pid,name,k+1,cs))
            o.append('  Forall span_ok chunks /\\ %s (concat chunks) ='%spec)
            o.append('  unhex "%s".'%hexd)
            o.append('Proof. digest_case%s (%s_%s%s %s). Qed.'%('_dom' if dom else '',pid,name,suf,'true' if k%2==0 else 'false')); o.append('')
        o.append('Example %s_%s_demo : exists os s\','%(pid,name))
        o.append('  arun %s %s demo (fun _ => afresh) os s\' /\\'%(spec,D))
        o.append('  nth_error os 2 = Some (ONum 0x%s).'%lead)
        o.append('Proof. demo_case %s_%s_case1. Qed.'%(pid,name)); o.append('')
    open(OUT+fname+'.v','w').write('\n'.join(o)+extra)
import hashlib
def kat(h, abc, emptyd=None, count=None):
    return [(['text "a"','text "bc"'],abc)]
def std(fn,B=64):
    c=bytes(range(256))
    return [(['text "ab"','[]','text "c"'],fn(b'abc')),(['counting %d'%(B-9),'counting 12'],fn(c[:B-9]+c[:12]))], fn(b'abc')[:8]
def hl(n): return lambda b: hashlib.new(n,b).hexdigest()
import re
FOX='The quick brown fox jumps over the lazy dog'
def repo(f,occ=0):
    """known answers from /repo/tests: "abc" and the three-fold fox sentence"""
    t=open('/repo/tests/test_%s.cpp'%f).read()
    def get(msg):
        return re.findall(r'const char s\d+\[\] = "%s";\s*\n\s*REQUIRE\("([0-9a-f]+)"'%re.escape(msg),t)[occ]
    a=get('abc')
    return [(['text "ab"','[]','text "c"'],a),(['text "%s"'%FOX,'text "%s"'%(FOX+FOX)],get(FOX*3))], a[:8]
def tiger11():
    o=['''(** C11: reading a Tiger/128 or Tiger/160 digest writes past the end of the result array. *)
From Coq Require Import String List NArith.
From Verif.Base Require Import Res.
From Verif.Spec Require Import Words Client.
From Verif.Model Require Import Api.
From Verif.Tests Require Import Kit.
From Verif.Spec Require Tiger.
From Verif.Model Require Tiger.
From Verif.Proof Require Tiger.
Import ListNotations.
''']
    for V in (1,2):
        for D in (128,160):
            n='C11_tiger%d_%d'%(V,D)
            sp='Spec.Tiger.tiger'+('' if V==1 else '2')
            o.append('''(** Tiger%d_%d: for every message the read-out performs an out-of-bounds write, so no
    message yields the %d-byte digest. *)
Theorem %s_refuted : forall dbg chunks,
  Forall span_ok chunks ->
  hash_chunks (Model.Tiger.cls %d %d dbg) chunks = Ub OobWrite /\\
  hash_chunks (Model.Tiger.cls %d %d dbg) chunks <> Ok (Spec.Tiger.truncated %d %s (concat chunks)).
Proof. exact (fun dbg chunks H => Proof.Tiger.short_refuted %d %d dbg chunks _ (Proof.Tiger.lt24 %d eq_refl) H). Qed.
Print Assumptions %s_refuted.

Example %s_case : let chunks := [text "ab"; []; text "c"] in
  Forall span_ok chunks /\\ hash_chunks (Model.Tiger.cls %d %d false) chunks = Ub OobWrite.
Proof. split; [spans|exact (proj1 (%s_refuted false [text "ab"; []; text "c"] ltac:(spans)))]. Qed.
'''%(V,D,D//8,n,V,D//8,V,D//8,D//8,sp,V,D//8,D//8,n,n,V,D//8,n))
    open(OUT+'C11_Tiger.v','w').write('\n'.join(o))
def shake():
    o=['''(** C16: SHAKE_128 and SHAKE_256 compute the SHAKE functions of FIPS 202, for every output length.
    C32: a shorter output is a prefix of a longer one. *)
From Coq Require Import String List NArith ZArith Lia.
From Verif.Base Require Import Res.
From Verif.Spec Require Import Words Client.
From Verif.Model Require Import Api.
From Verif.Tests Require Import Kit.
From Verif.Spec Require Keccak.
From Verif.Model Require Keccak.
From Verif.Proof Require Api.
From Verif.Proof Require Keccak.
From Verif.Proof Require KeccakOut.
From Verif.Proof Require Shake.
Import ListNotations.

Lemma ok_inj {A} (x y : A) : Ok x = Ok y -> x = y.
Proof. intros E. now injection E. Qed.
''']
    c=bytes(range(256))
    for n,R in ((128,168),(256,136)):
        f=getattr(hashlib,'shake_%d'%n)
        S='Spec.Keccak.shake%d'%n; M='Model.Keccak.shake%d'%n
        kats=[(32,['text "ab"','[]','text "c"'],f(b'abc').hexdigest(32)),
              (R+5,['counting %d'%(R-9),'counting 12'],f(c[:R-9]+c[:12]).hexdigest(R+5)),
              (R,['counting %d'%(R-1)],f(c[:R-1]).hexdigest(R))]
        o.append('''(** SHAKE_%(n)d(d): any sequence of addData calls, then finalize() and toVector(). *)
Theorem C16_shake%(n)d : forall dbg d chunks,
  Forall span_ok chunks ->
  hash_chunks (%(M)s dbg d) chunks = Ok (%(S)s d (concat chunks)).
Proof. exact (fun dbg d chunks H => Proof.Api.correct_chunks _ _ _ (Proof.Keccak.shake%(n)d_correct dbg d) chunks H I). Qed.
Print Assumptions C16_shake%(n)d.

(** the same from the constructor on, which takes an int: lengths that are not negative work, the
    others make the constructor throw *)
Theorem C16_shake%(n)d_int : forall dbg (length : Z) chunks,
  Forall span_ok chunks ->
  (let! x := Model.Keccak.construct (%(b)d / 8) length in hash_from (%(M)s dbg 0) x chunks) =
  if (0 <=? length)%%Z then Ok (%(S)s (Z.to_nat length) (concat chunks)) else Throw LengthError.
Proof. exact Proof.Shake.shake%(n)d_int. Qed.
Print Assumptions C16_shake%(n)d_int.

(** every program over any number of such objects (addData, finalize, reset, copies, read-outs) *)
Theorem C16_shake%(n)d_history : forall dbg d p os s',
  arun (%(S)s d) (fun _ => True) p (fun _ => afresh) os s' ->
  exists st', exec (%(M)s dbg d) p (fun _ => c_new (%(M)s dbg d)) = Ok (os, st').
Proof. exact (fun dbg d => Proof.Api.correct_history _ _ _ (Proof.Keccak.shake%(n)d_correct dbg d)). Qed.
Print Assumptions C16_shake%(n)d_history.

(** the vector read out has exactly the requested number of bytes *)
Theorem C16_shake%(n)d_length : forall dbg d chunks,
  Forall span_ok chunks ->
  exists out, hash_chunks (%(M)s dbg d) chunks = Ok out /\\ length out = d.
Proof. exact Proof.Shake.shake%(n)d_length. Qed.
Print Assumptions C16_shake%(n)d_length.

(** objects fed the same message, whatever the chunks and the build: the output of length a is the
    beginning of the output of length b *)
Theorem C32_shake%(n)d : forall dbg dbg' a b chunks chunks',
  Forall span_ok chunks -> Forall span_ok chunks' -> concat chunks = concat chunks' -> a <= b ->
  exists out out', hash_chunks (%(M)s dbg b) chunks = Ok out /\\
    hash_chunks (%(M)s dbg' a) chunks' = Ok out' /\\ out' = firstn a out.
Proof. exact Proof.Shake.shake%(n)d_prefix. Qed.
Print Assumptions C32_shake%(n)d.
'''.replace('\\\\','\\')%dict(n=n,M=M,S=S,b=1600-2*n))
        for k,(d,chunks,hexd) in enumerate(kats):
            o.append('''Example C16_shake%d_case%d : let chunks := [%s] in
  Forall span_ok chunks /\\ %s %d (concat chunks) =
  unhex "%s".
Proof. digest_case (C16_shake%d %s %d). Qed.
'''.replace('\\\\','\\')%(n,k+1,'; '.join(chunks),S,d,hexd,n,'true' if k%2==0 else 'false',d))
        o.append('''Example C16_shake%(n)d_demo : exists os s',
  arun (%(S)s 32) (fun _ => True) demo (fun _ => afresh) os s' /\\
  nth_error os 2 = Some (ONum 0x%(l)s).
Proof. demo_case C16_shake%(n)d_case1. Qed.

(** the int theorem at a negative length, and the prefix theorem across a block boundary *)
Example C16_shake%(n)d_int_case :
  (let! x := Model.Keccak.construct (%(b)d / 8) (-1) in hash_from (%(M)s true 0) x [text "abc"]) = Throw LengthError.
Proof. exact (C16_shake%(n)d_int true (-1) [text "abc"] ltac:(spans)). Qed.
Example C32_shake%(n)d_case :
  firstn 40 (%(S)s %(d)d (concat [counting %(x)d; counting 12])) = %(S)s 40 (concat [counting %(x)d; counting 12]).
Proof.
  destruct (C32_shake%(n)d true false 40 %(d)d [counting %(x)d; counting 12] [counting %(x)d; counting 12]) as (o & o' & H & H' & ->);
    [spans|spans|reflexivity|lia|].
  rewrite C16_shake%(n)d in H by spans. rewrite C16_shake%(n)d in H' by spans.
  apply ok_inj in H. apply ok_inj in H'. rewrite <- H in H'. symmetry. exact H'.
Qed.
'''.replace('\\\\','\\')%dict(n=n,M=M,S=S,l=kats[0][2][:8],b=1600-2*n,d=R+5,x=R-9))
    open(OUT+'C16_Shake.v','w').write('\n'.join(o))
if __name__=='__main__':
    k,l=std(hl('sha1'))
    emit('C01_Sha1','C01: SHA_1 computes the SHA-1 of FIPS 180-4.',['Sha1'],['Sha1'],['Sha1'],
      [('C01','sha1','Spec.Sha1.sha1','Model.Sha1.cls','Proof.Sha1.sha1_correct','SHA_1',k,l)])
    E=[]
    for n,py in [('sha224','sha224'),('sha256','sha256')]:
        k,l=std(hl(py)); E.append(('C02',n,'Spec.Sha2.'+n,'Model.Sha2.cls'+n[3:],'Proof.Sha2.%s_correct'%n,'SHA2_'+n[3:],k,l))
    emit('C02_Sha256','C02: SHA2_224 and SHA2_256 compute the functions of FIPS 180-4.',['Sha2'],['Sha2'],['Sha2'],E)
    E=[]
    for n,py in [('sha384','sha384'),('sha512','sha512'),('sha512_224','sha512_224'),('sha512_256','sha512_256')]:
        k,l=std(hl(py),128); E.append(('C03',n,'Spec.Sha2.'+n,'Model.Sha2.cls'+n[3:],'Proof.Sha2.%s_correct'%n,'SHA2_'+n[3:],k,l))
    emit('C03_Sha512','C03: SHA2_384, SHA2_512, SHA2_512_224 and SHA2_512_256 compute the functions of FIPS 180-4.',['Sha2'],['Sha2'],['Sha2'],E)

    k,l=repo('md2')
    emit('C04_Md2','C04: MD2 computes the MD2 of RFC 1319.',['Md2'],['Md2'],['Md2'],
      [('C04','md2','Spec.Md2.md2','Model.Md2.cls','Proof.Md2.md2_correct','MD2',k,l)])
    k,l=repo('md4')
    emit('C05_Md4','C05: MD4 computes the MD4 of RFC 1320.',['Md4'],['Md4'],['Md4'],
      [('C05','md4','Spec.Md4.md4','Model.Md4.cls','Proof.Md4.md4_correct','MD4',k,l)])
    k,l=repo('md5')
    emit('C06_Md5','C06: MD5 computes the MD5 of RFC 1321.',['Md5'],['Md5'],['Md5'],
      [('C06','md5','Spec.Md5.md5','Model.Md5.cls','Proof.Md5.md5_correct','MD5',k,l)])
    E=[]
    for n in ['128','160','256','320']:
        k,l=repo('ripemd_'+n); E.append(('C07','ripemd'+n,'Spec.Ripemd.ripemd'+n,'Model.Ripemd.cls'+n,'Proof.Ripemd.ripemd%s_correct'%n,'RIPEMD_'+n,k,l))
    emit('C07_Ripemd','C07: the four RIPEMD classes compute the RIPEMD functions.',['Ripemd'],['Ripemd'],['Ripemd'],E)
    k,l=repo('has_160')
    emit('C08_Has160','C08: HAS_160 computes HAS-160.',['Has160'],['Has160'],['Has160'],
      [('C08','has160','Spec.Has160.has160','Model.Has160.cls','Proof.Has160.has160_correct','HAS_160',k,l)])
    k,l=repo('sm3')
    emit('C09_Sm3','C09: SM3 computes SM3.',['Sm3'],['Sm3'],['Sm3'],
      [('C09','sm3','Spec.Sm3.sm3','Model.Sm3.cls','Proof.Sm3.sm3_correct','SM3',k,l)])
    E=[]
    for i,(n,V) in enumerate([('tiger',1),('tiger2',2)]):
        k,l=repo('tiger',i); E.append(('C10',n,'Spec.Tiger.'+n,'Model.Tiger.cls %d 24'%V,'Proof.Tiger.%s_correct'%n,'Tiger%d_192'%V,k,l))
    emit('C10_Tiger','C10: Tiger1_192 and Tiger2_192 compute Tiger and Tiger2.',['Tiger'],['Tiger'],['Tiger'],E)
    tiger11()
    k,l=repo('whirlpool')
    emit('C12_Whirlpool','C12: Whirlpool computes Whirlpool (ISO/IEC 10118-3) on every message shorter than 2^128 bits.',['Whirlpool'],['Whirlpool'],['Whirlpool'],
      [('C12','whirlpool','Spec.Whirlpool.whirlpool','Model.Whirlpool.cls','Proof.Whirlpool.correct','Whirlpool',k,l,'Spec.Whirlpool.short_enough')])
    import pyblake
    E=[];X=''
    for n in (224,256,384,512):
        nb=4 if n<384 else 8
        fn=lambda b: pyblake.blake(n,b)
        c=bytes(range(256))
        ks=[(['text "ab"','[]','text "c"'],fn(b'abc')),(['counting %d'%(16*nb-9),'counting 12'],fn(c[:16*nb-9]+c[:12]))]
        E.append(('C13','blake%d'%n,'Spec.Blake.blake%d'%n,'Model.Blake1.cls%d'%n,'Proof.Blake1.blake%d_correct'%n,'Blake1_%d, when the padding fits into the last block of the message'%n,ks,fn(b'abc')[:8],'(Spec.Blake.tail_fits %d)'%nb,'_partial'))
        X+='''
(** Blake1_%(n)d is not BLAKE-%(n)d: a message of %(L)d zero bytes gets another digest. *)
Theorem C13_blake%(n)d_refuted : exists m, span_ok m /\\ forall dbg,
  hash_chunks (Model.Blake1.cls%(n)d dbg) [m] <> Ok (Spec.Blake.blake%(n)d m).
Proof. exact (ex_intro _ (repeat 0%%N %(L)d) (conj (Proof.Blake1Tail.zeros_span %(L)d eq_refl) Proof.Blake1Tail.blake%(n)d_refuted)). Qed.
Print Assumptions C13_blake%(n)d_refuted.

(** what Blake1_%(n)d computes instead: BLAKE-%(n)d with other counter values in the last two blocks *)
Theorem C13_blake%(n)d_coded : forall dbg chunks,
  Forall span_ok chunks ->
  hash_chunks (Model.Blake1.cls%(n)d dbg) chunks = Ok (Spec.Blake.blake%(n)d_coded (concat chunks)).
Proof. exact (fun dbg chunks H => Proof.Api.correct_chunks _ _ _ (Proof.Blake1.coded%(n)d_correct dbg) chunks H I). Qed.
Print Assumptions C13_blake%(n)d_coded.
'''%dict(n=n,L=14*nb)
    emit('C13_Blake','C13: the Blake1 classes compute BLAKE when the padding fits into the last block of the message, and only then.',['Blake'],['Blake1'],['Blake1','Blake1Tail'],E,X)
    E=[]
    for n,py,h,fits in [('b','blake2b','Blake2',128),('s','blake2s','Blake2s',64)]:
        k,l=std(hl(py),128 if n=='b' else 64)
        B=128 if n=='b' else 64
        c=bytes(range(256))
        # a message of exactly two blocks: the last block must be held back
        k.append((['counting %d'%B,'[]','counting %d'%B],hl(py)(c[:B]+c[:B])))
        E.append(('C14','blake2'+n,'Spec.Blake2.blake2'+n,'Model.Blake2.cls_'+n,'Proof.Blake2.blake2%s_correct'%n,h,k,l,'Spec.Blake2.fits_blake2'+n))
    emit('C14_Blake2','C14: Blake2 and Blake2s compute the unkeyed BLAKE2b-512 and BLAKE2s-256 of RFC 7693.',['Blake2'],['Blake2'],['Blake2'],E)
    E=[]
    for n,R in [(224,144),(256,136),(384,104),(512,72)]:
        k,l=std(hl('sha3_%d'%n),R)
        c=bytes(range(256))
        # one byte short of a block: suffix, first and last padding bit share a byte
        k.append((['counting %d'%(R-1)],hl('sha3_%d'%n)(c[:R-1])))
        E.append(('C15','sha3_%d'%n,'Spec.Keccak.sha3_%d'%n,'Model.Keccak.cls%d'%n,'Proof.Keccak.sha3_%d_correct'%n,'SHA3_%d'%n,k,l))
    emit('C15_Sha3','C15: the SHA3 classes compute the SHA-3 functions of FIPS 202.',['Keccak'],['Keccak'],['Keccak'],E)
    shake()
