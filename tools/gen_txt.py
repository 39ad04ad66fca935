"""Write the word lists of /repo/src/bip39/langs as string literals, one file each; long files are written in
several literals, split after a line, because Coq's parser cannot take one of that length."""
for name,line,mod in [('english',66,'EnglishTxt'),('chinese_simplified',68,'ChineseTxt'),('chinese_traditional',71,'TraditionalTxt'),
                      ('french',74,'FrenchTxt'),('italian',77,'ItalianTxt'),('japanese',80,'JapaneseTxt'),('korean',83,'KoreanTxt'),
                      ('spanish',86,'SpanishTxt')]:
    src=name+'.txt'
    t=open('/repo/src/bip39/langs/'+src,encoding='utf8',newline='').read()
    assert '"' not in t
    parts=['']
    for l in t.splitlines(keepends=True):
        if len(t.encode())>14000 and len((parts[-1]+l).encode())>10000: parts.append('')
        parts[-1]+=l
    assert ''.join(parts)==t
    with open('/verif/rocq/theories/%s.v'%mod,'w',encoding='utf8',newline='') as f:
        f.write('(** Verbatim copy of /repo/src/bip39/langs/%s (lines 1-2048), embedded by [include_str!]\n    at src/bip39/language.rs:%s.  Generated by tools/gen_txt.py; the literal%s the file, byte for byte. *)\nFrom Coq Require Import String.\n'
                %(src,line,' is' if len(parts)==1 else 's together are'))
        if len(parts)==1: f.write('Definition %s_txt : string := "%s"%%string.\n'%(name,t))
        else:
            for i,x in enumerate(parts): f.write('Definition %s_txt%d : string := "%s"%%string.\n'%(name,i+1,x))
            f.write('Definition %s_txt : string := (%s)%%string.\n'%(name,' ++ '.join('%s_txt%d'%(name,i+1) for i in range(len(parts)))))
