#!/usr/bin/env python3
"""Model/Leak/Lk*.v from Model/*.v: the same function bodies, read with the outcomes of Base/Leak.v, which record array
indices and branches.  Types, constants and functions without outcomes are those of Model/.  The only changes of the text:
an if between outcomes becomes if! (recorded), and the overrides below."""
import re, os
ROOT = os.path.join(os.path.dirname(os.path.abspath(__file__)), '..', 'rocq', 'theories')

FILES = ['Buffer', 'Stream', 'Call', 'BlakeMix', 'Blake1', 'Blake2', 'Crc32', 'Fnv', 'Has160', 'Keccak', 'Md2', 'Md4',
         'Md5', 'Ripemd', 'Sha1', 'Sha2', 'SipHash', 'Sm3', 'Tiger', 'Whirlpool', 'CShake', 'TupleHash', 'HasV']
SKIP = {('Stream', 'to_string'), ('SipHash', 'add'), ('HasV', 'toString')}
# a loop of the C++ code that the model has as a fold without outcomes
OVERRIDE = {('Fnv', 'addDataImpl'):
    'Definition addDataImpl (data : list N) (m_hash : Obj) : res Obj := foldM (fun b h => Ok (step h b)) data m_hash.',
    ('Keccak', 'addData'): 'Definition addData : list N -> Buffer * St -> res (Buffer * St) := LkStream.addData St R R dbg impl.',
    # the loop condition
    ('CShake', 'encodeLoop'): '''Fixpoint encodeLoop (k : nat) (value : N) (ret : Buffer) : res Buffer :=
    match k with
    | O => tell (Branch false) (Ok ret)
    | S i => tell (Branch true) (
        if 64 <=? 8 * N.of_nat i then Ub BadShift
        else
          let! ret := buf_fill dbg (ror 8 value (8 * N.of_nat i)) 1 ret in
          encodeLoop i value ret)
    end.''',
    # pure functions of the model with a branch in the C++ code
    ('CShake', 'swap_selected'): '''Definition swap_selected (this other : Obj) : res (Obj * Obj) :=
  let c := m_customized other in
  if! negb c then Ok (CShake.swap_selected this other) else Ok (CShake.swap_selected this other).''',
    ('CShake', 'move_construct'): 'Definition move_construct (other : Obj) : res (Obj * Obj) := swap_selected (mkObj false None None) other.',
    ('CShake', 'move_assign'): 'Definition move_assign (this other : Obj) : res (Obj * Obj) := swap_selected this other.',
    ('TupleHash', 'move_construct'): '''Definition move_construct (o : Obj) : res (Obj * Obj) :=
  let! (c, c') := LkCShake.move_construct (m_cshake o) in Ok (mkObj c (m_digestLength o), mkObj c' (m_digestLength o)).''',
    ('TupleHash', 'move_assign'): '''Definition move_assign (this other : Obj) : res (Obj * Obj) :=
  let! (c, c') := LkCShake.move_assign (m_cshake this) (m_cshake other) in
  Ok (mkObj c (m_digestLength other), mkObj c' (m_digestLength other)).''',
    # std::vector operations that the model has as list functions, and two branches of the C++ code
    ('HasV', 'addData_tail'): '''(** elements written behind the end of a std::vector *)
Definition vec_append (d : list N) (buf : list N) : res (list N) :=
  foldM (fun v b => tell (Write (length b)) (Ok (b ++ [v]))) d buf.

Definition addData_tail (dbg : bool) (data buf : list N) (s : MD (list N)) : res Obj :=
  let dataSize := length data in
  if! (dataSize <? 128)%nat then let! buf := vec_append data [] in Ok (buf, s)
  else
    let len := (dataSize - dataSize mod 128)%nat in
    let! d := span_first len data in
    let! s := impl dbg d s in
    if! (len <? dataSize)%nat then let! buf := vec_append (skipn len data) [] in Ok (buf, s) else Ok (buf, s).''',
    ('HasV', 'addData'): '''Definition addData (dbg : bool) (inData : list N) (o : Obj) : res Obj :=
  let (buf, s) := o in
  if! negb (Nat.eqb (length buf) 0) then
    let len := if (length buf <=? 128)%nat then min (128 - length buf) (length inData) else length inData in
    let! buf := vec_append (firstn len inData) buf in
    if! (length buf <? 128)%nat then Ok (buf, s)
    else
      let! s := impl dbg buf s in
      let! data := span_subspan len inData in
      addData_tail dbg data [] s
  else addData_tail dbg inData buf s.''',
    ('HasV', 'finalize'): '''Definition finalize (dbg : bool) (o : Obj) : res Obj :=
  let (buf, s) := o in
  let cnt := uadd 64 (md_cnt s) (N.of_nat (length buf)) in
  let! buf := vec_append [128] buf in
  let len := pad_len 128 9 (length buf) in
  let! buf := vec_append (repeat 0 (len + 9)) buf in
  let! buf := set_from_end 9 0 (320 / 8) buf in
  let bits := umul 64 cnt 8 in
  let L := ror 32 bits 0 in
  let H := ror 32 bits 32 in
  let! buf := for_ 0 4 (fun i b =>
    let! b := set_from_end 8 i (ror 8 L (8 * N.of_nat i)) b in
    set_from_end 4 i (ror 8 H (8 * N.of_nat i)) b) buf in
  let! s := impl dbg buf (mkMD cnt (md_h s)) in
  Ok ([], s).'''}
# functions of another file that are called by their qualified name
CALLS = re.compile(r'\b(Keccak\.(?:addData|reset|finalize|toVector|construct)|CShake\.(?:encodeLoop|leftEncode|addData|reset|finalize|toVector|construct|copy_construct|copy_assign))\b')
APPEND = {'Stream': '''
(** one hexadecimal digit: (upper < 10) ? (upper + '0') : (upper - 10 + 'a')      sha1.h:338-343 *)
Definition hex_digit (x : N) : res N := if! (x <? 10)%N then Ok (x + 48)%N else Ok (x - 10 + 97)%N.

(** toString()      sha1.h:329-346 *)
Definition to_string (digest : list N) : res (list N) :=
  match digest with
  | [] => Ub EmptyFront
  | _ => foldM (fun c s =>
      let! u := hex_digit (ror 8 c 4) in
      let! l := hex_digit (N.land c 15) in
      Ok (s ++ [u; l])) digest []
  end.
'''}

def sentences(text):
    """(comment before, sentence) pairs"""
    out, i, cur, com, n = [], 0, '', '', len(text)
    while i < n:
        if text.startswith('(*', i):
            depth, j = 1, i + 2
            while depth:
                if text.startswith('(*', j): depth += 1; j += 2
                elif text.startswith('*)', j): depth -= 1; j += 2
                else: j += 1
            if cur.strip(): cur += text[i:j]
            else: com += text[i:j] + '\n'
            i = j
        elif text[i] == '.' and (i + 1 == n or text[i + 1].isspace()):
            out.append((com, cur.strip() + '.')); cur = com = ''; i += 1
        else:
            cur += text[i]; i += 1
    return out

MONADIC = re.compile(r'\b(res|Ok|Ub|Throw)\b|let!')

def convert(name):
    text = open(os.path.join(ROOT, 'Model', name + '.v')).read()
    head, body, depth = [], [], 0
    lk = []
    for com, s in sentences(text):
        w = s.split()[0]
        if w in ('From', 'Import', 'Export', 'Require'):
            if s.startswith('From Verif.Model Require Import'):
                mods = s.rstrip('.').split()[4:]
                lk += ['Lk' + m for m in mods if m in FILES]
            head.append(s)
            continue
        if w in ('Record', 'Inductive', 'Arguments'): continue
        ident = re.match(r'(?:Definition|Fixpoint)\s+(\w+)', s)
        ident = ident.group(1) if ident else None
        if ident and (name, ident) in SKIP: continue
        if ident and re.search(r'\b(HashClass|ObjClass|cls)\b', s): continue
        if ident and depth == 0 and not MONADIC.search(s) and (name, ident) not in OVERRIDE: continue
        if w == 'Section': depth += 1
        if w == 'End': depth -= 1
        if ident and (name, ident) in OVERRIDE: s = OVERRIDE[name, ident]
        elif ident and MONADIC.search(s):
            s = re.sub(r'(:= |; )?\bif\b', lambda m: m.group(0) if m.group(1) else 'if!', s)
        if ident and name in ('CShake', 'TupleHash') and (name, ident) not in OVERRIDE: s = CALLS.sub(r'Lk\1', s)
        ind = '  ' * (depth - (w == 'Section'))
        body.append((ind + com.strip() + '\n' if com.strip() else '') + ind + s)
    head = [h for h in head if h.startswith('From') and not h.startswith('From Verif.Base')]
    out = ['(** Generated by tools/gen_leak.py from Model/%s.v: the same functions with the array indices and branches they show. *)' % name]
    out += ['From Verif.Base Require Import Res CWord%s.' % (' Double' if name == 'CShake' else '')] + head + ['From Verif.Model Require Import %s.' % name, 'From Verif.Base Require Import Leak.']
    lk += {'CShake': ['LkKeccak'], 'TupleHash': ['LkCShake']}.get(name, [])
    if lk: out.append('From Verif.Model.Leak Require Import %s.' % ' '.join(dict.fromkeys(lk)))
    out += ['Import ListNotations.'] + body
    open(os.path.join(ROOT, 'Model', 'Leak', 'Lk%s.v' % name), 'w').write('\n'.join(out) + '\n' + APPEND.get(name, ''))

for f in FILES: convert(f)
