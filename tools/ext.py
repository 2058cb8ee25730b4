import re,sys,glob
def stmts():
    out={}
    for f in glob.glob('/verif/rocq/theories/*Proofs.v')+glob.glob('/verif/rocq/theories/*Facts.v'):
        s=open(f).read()
        for m in re.finditer(r'Lemma (c\d\d\w*)\s*:\s*(.*?)\.\s*\nProof',s,re.S):
            out[m.group(1)]=(m.group(2),f)
    return out
if __name__=='__main__':
    for k,(v,f) in sorted(stmts().items()):
        print('---',k,f.split('/')[-1]); print(v)
