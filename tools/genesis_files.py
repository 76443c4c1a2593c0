#!/usr/bin/env python3
"""Writes rocq/theories/Model/GenesisFiles.v from /repo/genesis/files."""
def pack(name,f):
    d=open('/repo/genesis/files/'+f,'rb').read()
    k=len(d)//32
    w=[ '0x'+d[32*i:32*i+32].hex() for i in range(k)]
    r=d[32*k:]
    return f"Definition {name} : bytes :=\n  unpack\n    [" + ";\n     ".join(w)+f"]\n    {len(r)}%nat {'0x'+r.hex() if r else '0'}.\n"
o='''(** The contents of genesis/files: the binary files that genesis/genesis.go:54-56 embeds.
    Generated by tools/genesis_files.py from /repo. *)
From Coq Require Import ZArith List.
Import ListNotations.
From Verif.Model Require Import Base Blake2b.
Open Scope Z_scope.

'''
for prof in ('test','main'):
    for k in ('block','accounts'):
        o+=f"(** genesis/files/{prof}.{k}.bin *)\n"+pack(f"{prof}_{k}_bin",f"{prof}.{k}.bin")
open('/verif/rocq/theories/Model/GenesisFiles.v','w').write(o)
