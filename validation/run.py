"""Runs the model on the test vectors of /repo.

This is a test of the model's fidelity, not part of any proof.  It extracts the model's functions to
OCaml, supplies the arithmetic of the two prime fields, takes the default generators, the test vectors
and the genesis file from /repo, and compares.  Usage, after building /verif/rocq:

    python3 /verif/validation/run.py
"""
import os, re, shutil, subprocess, tempfile
here = os.path.dirname(os.path.abspath(__file__))
tmp = tempfile.mkdtemp()
os.chdir(tmp)
shutil.copy(os.path.join(here, 'extract.txt'), 'Ex.v')
shutil.copy(os.path.join(here, 'driver.txt'), 'main.ml')
open('zz.ml', 'w').write('let shl a b = Z.shift_left a (Z.to_int b)\nlet shr a b = Z.shift_right a (Z.to_int b)\n')
open('zalias.ml', 'w').write('module ZA = Z\n')
crs = re.findall(r'"([0-9a-f]{128})"', open('/repo/ipa-multipoint/src/default_crs.rs').read())
assert len(crs) == 257
open('crs.txt', 'w').write(''.join(x + '\n' for x in crs))
long = re.findall(r'expected = "([0-9a-f]{600,})"', open('/repo/ipa-multipoint/src/multiproof.rs').read())
assert len(long) == 2
open('vectors.ml', 'w').write('let ipa="%s"\nlet mp="%s"\n' % tuple(long))
import json,re
def keccak(data):
    RC=[];r=1
    def rol(x,n): n%=64; return ((x<<n)|(x>>(64-n)))&(2**64-1) if n else x
    st=[[0]*5 for _ in range(5)]
    def f(A):
        R=1
        for rnd in range(24):
            C=[A[x][0]^A[x][1]^A[x][2]^A[x][3]^A[x][4] for x in range(5)]
            D=[C[(x-1)%5]^rol(C[(x+1)%5],1) for x in range(5)]
            A=[[A[x][y]^D[x] for y in range(5)] for x in range(5)]
            x,y=1,0;cur=A[x][y]
            for t in range(24):
                x,y=y,(2*x+3*y)%5
                cur,A[x][y]=A[x][y],rol(cur,(t+1)*(t+2)//2)
            for y in range(5):
                T=[A[x][y] for x in range(5)]
                for x in range(5): A[x][y]=T[x]^((~T[(x+1)%5])&T[(x+2)%5])
            for j in range(7):
                R=((R<<1)^((R>>7)*0x71))%256
                if R&2: A[0][0]^=1<<((1<<j)-1)
        return A
    d=bytearray(data)+b'\x01'
    while len(d)%136: d.append(0)
    d[-1]|=0x80
    for o in range(0,len(d),136):
        for i in range(17):
            st[i%5][i//5]^=int.from_bytes(d[o+8*i:o+8*i+8],'little')
        st=f(st)
    return b''.join(st[i%5][i//5].to_bytes(8,'little') for i in range(4))
assert keccak(b'').hex()=='c5d2460186f7233c927e7db2dcc703c0e500b653ca82273b7bfad8045d85a470'
g=json.load(open('/repo/verkle-spec/assets/devnet6_genesis.json'))['alloc']
out=open('data2.ml','w')
out.write('let accounts = [\n')
for a,v in g.items():
    a=a[2:] if a.startswith('0x') else a
    code=v.get('code'); 
    if code is not None: code=code[2:] if code.startswith('0x') else code
    st=v.get('storage') or {}
    assert len(a)==40
    kec=keccak(bytes.fromhex(code) if code else b'').hex()
    sl=';'.join('("%s","%s")'%(str(int(k,16)),x[2:] if x.startswith('0x') else x) for k,x in st.items())
    out.write('("%s","%s","%s",%s,"%s",[%s]);\n'%(a,v['balance'],v.get('nonce','0'),'None' if code is None else 'Some "%s"'%code,kec,sl))
out.write(']\n')
src=open('/repo/verkle-trie/src/proof/golang_proof_format.rs').read()
w=json.loads(re.search(r'EXECUTION_WITNESS_JSON: &str = r#"(.*?)"#',src,re.S).group(1))
root=re.search(r'PREVIOUS_STATE_ROOT: &str =\s*"(.*?)"',src).group(1)
def s(x): return 'st "%s"'%x
def so(x): return 'None' if x is None else 'Some (st "%s")'%x
def L(l): return '['+';'.join(s(x) for x in l)+']'
out.write('let st x = List.init (String.length x) (fun i -> Zalias.ZA.of_int (Char.code x.[i]))\n')
out.write('open Model\nlet root = st "%s"\n'%root)
vp=w['verkleProof']
out.write('let ew = { ew_state = [%s]; ew_proof = { jv_other=%s; jv_depth=%s; jv_comms=%s; jv_d=%s; jv_ipa={ji_cl=%s;ji_cr=%s;ji_final=%s} } }\n'%(
 ';'.join('{jt_stem=%s; jt_diffs=[%s]}'%(s(d['stem']),';'.join('{js_suffix=Zalias.ZA.of_int %d; js_current=%s; js_new=%s}'%(x['suffix'],so(x['currentValue']),so(x['newValue'])) for x in d['suffixDiffs'])) for d in w['stateDiff']),
 L(vp['otherStems']),s(vp['depthExtensionPresent']),L(vp['commitmentsByPath']),s(vp['d']),L(vp['ipaProof']['cl']),L(vp['ipaProof']['cr']),s(vp['ipaProof']['finalEvaluation'])))

out.close()
subprocess.check_call(['coqc', '-Q', os.path.join(here, '../rocq/theories'), 'Verif', 'Ex.v'], stdout=subprocess.DEVNULL, stderr=subprocess.DEVNULL)
subprocess.check_call('ocamlfind ocamlopt -w -a -package zarith -linkpkg zz.ml zalias.ml vectors.ml model.mli model.ml data2.ml main.ml -o m 2>/dev/null', shell=True)
subprocess.check_call('ulimit -s unlimited; ./m', shell=True)
shutil.rmtree(tmp)
