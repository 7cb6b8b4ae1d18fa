#!/usr/bin/env python3
"""Generate rocq/theories/M_Layouts.v: the struc layouts (field name, element size, element count, in order) of the Go
structs listed below, read from /repo as text.  Nested and embedded structs are flattened with dotted names."""
import re,os
root=os.path.dirname(os.path.dirname(os.path.abspath(__file__)))
SIZES={'uint8':1,'byte':1,'int8':1,'uint16':2,'uint32':4,'uint64':8,'int16':2,'int32':4,'int64':8}
def parse(path):
    out={}
    src=open('/repo/'+path).read()
    src=re.sub(r'/\*.*?\*/',lambda m:'\n'*m.group(0).count('\n')+' ',src,flags=re.S)
    for c,v in re.findall(r'^\t(\w+) = (\d+)$',src,re.M): src=src.replace('[%s]'%c,'[%s]'%v)
    lines=src.split('\n')
    i=0
    while i<len(lines):
        m=re.match(r'type (\w+) struct \{',lines[i])
        if m:
            name=m.group(1);start=i+1;fields=[]
            i+=1
            while not lines[i].startswith('}'):
                l=re.sub(r'/\*.*?\*/',' ',lines[i]);l=re.sub(r'//.*$','',l).strip()
                tag=re.search(r'struc:"([^"]*)"',l)
                t=tag.group(1).split(',')[0] if tag else None
                l=re.sub(r'`.*','',l).strip()
                if l:
                    p=l.split()
                    if len(p)==1: fields.append((p[0],p[0],t,True))
                    else: fields.append((p[0],p[1],t,False))
                i+=1
            out[name]=(path,start,i+1,fields)
        i+=1
    return out
def flat(db,name,prefix=''):
    res=[]
    for (fn,ty,tag,emb) in db[name][3]:
        m=re.match(r'\[(\d+)\](\w+)$',ty)
        cnt,base=(int(m.group(1)),m.group(2)) if m else (1,ty)
        if tag:
            mm=re.match(r'(?:\[(\d+)\])?(\w+)$',tag); tb=mm.group(2)
            assert int(mm.group(1) or 1)==cnt,(name,fn,ty,tag)
        else: tb=base
        if base in db:
            for k in range(cnt):
                p=prefix+('' if emb else fn+('[%d]'%k if m else '')+'.')
                res+=flat(db,base,p)
        else:
            res.append((prefix+fn,SIZES[tb],cnt))
    return res
WANT=[('ata/types.go',['IdentityDeviceData','SmartAttributeValues','SmartAttributeThresholds']),
      ('nvme/types.go',['IdentifyController','SanitizeLogPage','SmartLogPage']),
      ('tcg/types.go',['Discovery0Header','Discovery0BasicFeature','Discovery0TPerFeature','Discovery0LockingFeature','Discovery0GeometryReportingFeature',
        'Discovery0OpalSSCFeatureV100','Discovery0OpalSSCFeatureV200','Discovery0EnterpriseSSCFeature','Discovery0SingleUserModeFeature','Discovery0DataStoreTableFeature'])]
if __name__=='__main__':
    o=['(** GENERATED by tools/mklayout.py from the struct definitions of /repo (read as text): field name, bytes per element,',
       '    number of elements, in declaration order; nested and embedded structs flattened.  Elements are named by the Go path. *)',
       'From Verif Require Import Base M_Struc.','']
    for path,names in WANT:
        db=parse(path)
        for n in names:
            if n not in db:
                print('missing',path,n,[k for k in db if 'Smart' in k or 'Disc' in k]); continue
            f=flat(db,n); tot=sum(a*b for _,a,b in f)
            print(path,n,len(f),tot)
            o.append('(** %s:%d-%d *)'%(path,db[n][1],db[n][2]))
            o.append('Definition lay_%s : list fld :=\n  [%s].\n'%(n,';\n   '.join('F "%s" %d %d'%x for x in f)))
    open(root+'/rocq/theories/M_Layouts.v','w').write('\n'.join(o))
