#!/usr/bin/env python3
"""Writes rocq/theories/Shipped.v: the text of /repo/boxes-config as a list of code points."""
import re
src=open('/repo/boxes-config',encoding='utf-8',newline='').read()
assert '␛' not in src and '\r' not in src and '\0' not in src and src.endswith('\n')
lines=src.split('\n')[:-1]
blocks=[]
cur=[]
for l in lines:
    cur.append(l)
    if re.match(r'(?i)end +\S+\s*$',l): blocks.append(cur); cur=[]
blocks[-1]+=cur
q=lambda l:'"'+l.replace('\x1b','␛').replace('"','""')+'"'
out=open('/verif/rocq/theories/Shipped.v','w',encoding='utf-8')
out.write('''(** * The configuration file that comes with the program (/repo/boxes-config)
    Made by tools/mkshipped.py. One string per line of the file; U+241B stands for the escape character. *)
From Coq Require Import Ascii String List NArith.
From Verif Require Import Base.
Import ListNotations.
Local Open Scope N_scope.

(** the code points of a text in UTF-8 *)
Fixpoint utf8 (s : string) : list N :=
  match s with
  | EmptyString => []
  | String a r =>
      let x := N_of_ascii a in
      if x <? 128 then x :: utf8 r
      else match r with
           | String b r' =>
               let y := N_of_ascii b in
               if x <? 224 then (x - 192) * 64 + (y - 128) :: utf8 r'
               else match r' with
                    | String c r'' => (x - 224) * 4096 + (y - 128) * 64 + (N_of_ascii c - 128) :: utf8 r''
                    | EmptyString => []
                    end
           | EmptyString => []
           end
  end.
Definition file_line (s : string) : list N := map (fun c => if c =? 9243 then 27 else c) (utf8 s) ++ [10].
Local Open Scope string_scope.
''')
for i,b in enumerate(blocks):
    out.write('Definition part%d : list string := [\n'%i+';\n'.join(q(l) for l in b)+'].\n')
out.write('(** the lines up to the end of each design *)\nDefinition parts : list (list string) :=\n  [%s].\n'%'; '.join('part%d'%i for i in range(len(blocks))))
out.write('Definition boxes_config : list N := flat_map (flat_map file_line) parts.\n')
