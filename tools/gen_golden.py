#!/usr/bin/env python3
"""Writes rocq/theories/Golden.v from the test data in /repo/python."""
import json,base64,os,hashlib
R='/repo/python/'
out=[]
def q(s): return 'bs "'+s.replace('"','""')+'"'
out.append('''(** * Golden: the model run on the test data of the repository.

    python/testdata was written by this library, python/jtestdata by the Java version of keyczar.
    Each check below opens a key set from its files and decrypts or verifies the outputs stored
    beside it.  The checks are evaluated while this file is compiled; each [Example] fails to
    compile if the model gives another answer.  They are tests of the model, not properties. *)
From Coq Require Import Strings.String.
From Coq Require Import List ZArith NArith Bool.
From Coq.Init Require Import Byte.
From Verif Require Import PyBase Base64 Util Json KeyInfo SymKeys ModArith AsymKeys Keys KeyData Keyczar Disk Keyczart.
Import ListNotations.
Local Open Scope Z_scope.

(** The directories, python/testdata and python/jtestdata. *)''')
dirs=[]
for t in ('testdata','jtestdata'):
    for d in sorted(os.listdir(R+t)):
        fs=[]
        for f in sorted(os.listdir(R+t+'/'+d)):
            s=open(R+t+'/'+d+'/'+f).read()
            assert all(31<ord(c)<127 for c in s),(t,d,f)
            fs.append('(bs "%s", %s)'%(f,q(s)))
        dirs.append('  (bs "%s/%s", [%s])'%(t,d,';\n    '.join(fs)))
out.append('Definition golden_disk : disk := [\n'+';\n'.join(dirs)+'].')
out.append('''
Definition message : str := bs "This is some test data".

(** The set in a directory, and a stored output. *)
Definition golden_set (c : kclass) (l : string) (crypter : option keyset) : res keyset :=
  snd (exec (open_files c (bs l) crypter) golden_disk).
Definition golden_out (l n : string) : res str := snd (exec (ReadFile (bs l) (bs n)) golden_disk).

Definition is_true (r : res bool) : bool := match r with Ok b => b | Raise _ => false end.
Definition decrypts (l : string) (crypter : option keyset) (n : string) : bool :=
  is_true (let* ks := golden_set Crypter l crypter in let* c := golden_out l n in
           let* m := Decrypt ks c b64_decoder in Ok (str_eqb m message)).
Definition verifies (c : kclass) (l out n : string) : bool :=
  is_true (let* ks := golden_set c l None in let* s := golden_out out n in Verify ks message s b64_decoder).
''')
n=[0]
def check(expr,cm):
    n[0]+=1
    out.append('(** %s *)\nDefinition check_%d : bool := Eval vm_compute in %s.\nExample golden_%d : check_%d = true. Proof. reflexivity. Qed.\n'%(cm,n[0],expr,n[0],n[0]))
for t in ('testdata','jtestdata'):
    for v in '12':
        check('decrypts "%s/aes" None "%s.out"'%(t,v),'AES, %s, version %s'%(t,v))
        check('verifies Signer "%s/hmac" "%s/hmac" "%s.out"'%(t,t,v),'HMAC, %s, version %s'%(t,v))
    out.append('Definition crypter_%s : option keyset := Eval vm_compute in match golden_set Crypter "%s/aes" None with Ok ks => Some ks | Raise _ => None end.'%(t,t))
    for v in '12':
        check('decrypts "%s/aes-crypted" crypter_%s "%s.out"'%(t,t,v),'An encrypted AES set, %s, version %s'%(t,v))
def b64(s): s=s.replace('\n',''); return base64.urlsafe_b64decode(s+'='*(-len(s)%4))
out.append('''(** RSA decryption raises the ciphertext to a 2048-bit power, which takes too long here.  Instead
    the number [em], found outside Coq, is checked to be what decryption computes: its e-th power
    is the ciphertext; and it is decoded by the model. *)
Definition rsa_decrypts (l n : string) (em : Z) : bool :=
  is_true (let* ks := golden_set Crypter l None in let* c := golden_out l n in
           let* raw := Base64WSDecode c in let* k := ParseHeader ks (slice_to raw HEADER_SIZE) in
           match k with
           | KRsaPriv k =>
               let* c := rsa_public (rn_pub (rs_key k)) em in
               let* m := oaep_decode (num_bytes (rn_n (rn_pub (rs_key k)))) (long_to_bytes em) in
               Ok ((c =? bytes_to_long (slice_from raw HEADER_SIZE)) && str_eqb m message)
           | _ => Ok false
           end).
''')
for t in ('testdata','jtestdata'):
    for v in '12':
        k=json.load(open(R+t+'/rsa/'+v)); I=lambda s:int.from_bytes(b64(s),'big')
        N=I(k['publicKey']['modulus']); d=I(k['privateExponent'])
        c=int.from_bytes(b64(open(R+t+'/rsa/'+v+'.out').read())[5:],'big')
        em=pow(c,d,N)
        out.append('Definition em_%s_%s : Z := %d.'%(t,v,em))
        check('rsa_decrypts "%s/rsa" "%s.out" em_%s_%s'%(t,v,t,v),'RSA encryption, %s, version %s'%(t,v))
for t in ('testdata','jtestdata'):
    for v in '12':
        check('verifies Signer "%s/rsa-sign" "%s/rsa-sign" "%s.out"'%(t,t,v),'RSA signatures, %s, version %s'%(t,v))
    check('verifies Verifier "%s/rsa-sign.public" "%s/rsa-sign" "2.out"'%(t,t),'and with the exported public keys')
check('verifies Signer "testdata/dsa" "testdata/dsa" "1.out"','A DSA signature, testdata, version 1')
check('verifies Verifier "jtestdata/dsa.public" "jtestdata/dsa" "2.out"','A DSA signature, jtestdata, version 2, with the exported public keys')
out.append('''(** Encrypting and signing give the stored bytes again; the random bytes of the encryption, its
    initialization vector, are taken from the stored ciphertext. *)
Definition encrypts_again (l : string) (crypter : option keyset) (n : string) (lib : cryptlib) : bool :=
  is_true (let* ks := golden_set Crypter l crypter in let* c := golden_out l n in let* raw := Base64WSDecode c in
           let iv := slice raw HEADER_SIZE (HEADER_SIZE + 16) in
           let* c' := Encrypt (MkEnv lib (fun i => nth i iv x00) 0) ks message b64_encoder in Ok (str_eqb c' c)).
Definition signs_again (l n : string) : bool :=
  is_true (let* ks := golden_set Signer l None in let* s := golden_out l n in
           let* s' := Sign (MkEnv PyCrypto (fun _ => x00) 0) ks message b64_encoder in Ok (str_eqb s' s)).
''')
for t in ('testdata','jtestdata'):
    check('encrypts_again "%s/aes" None "2.out" PyCrypto'%t,'AES, %s'%t)
    check('encrypts_again "%s/aes-crypted" crypter_%s "2.out" M2Crypto'%(t,t),'AES with the other library, %s'%t)
    check('signs_again "%s/hmac" "2.out"'%t,'HMAC, %s'%t)
open(os.path.dirname(os.path.dirname(os.path.abspath(__file__))) + '/rocq/theories/Golden.v', 'w').write('\n'.join(out)+'\n')
