#!/usr/bin/env python3
"""Translate the repository's own unit tests (/repo/tests/YstringTest/test_*.cpp)
into Coq examples evaluated on the model: theories/Tests/RepoTests.v.

They are a check of the model against what the authors say the code does, not
proofs of anything.  Every assertion of the nine test files is translated, or the
script stops."""
import re, sys, os
D = '/repo/tests/YstringTest'
OUT = os.path.join(os.path.dirname(__file__), '../rocq/theories/Tests/RepoTests.v')
MACROS = dict(re.findall(r'#define (UTF8_\w+)\s+("[^"]*")', open(D + '/Utf8Chars.hpp').read()))
SIMPLE = {'a':7,'b':8,'f':12,'n':10,'r':13,'t':9,'v':11,'\\':92,"'":39,'"':34,'?':63}

def unescape(body):
    """C++ literal body -> list of ('b',byte) / ('c',codepoint)"""
    out=[]; i=0
    while i < len(body):
        ch=body[i]
        if ch!='\\': out.append(('c',ord(ch))); i+=1; continue
        d=body[i+1]
        if d in SIMPLE: out.append(('c',SIMPLE[d])); i+=2
        elif d=='x':
            m=re.match(r'[0-9A-Fa-f]+',body[i+2:]); out.append(('b',int(m.group(),16))); i+=2+m.end()
        elif d in 'uU':
            n=4 if d=='u' else 8; out.append(('c',int(body[i+2:i+2+n],16))); i+=2+n
        elif d in '01234567':
            m=re.match(r'[0-7]{1,3}',body[i+1:]); out.append(('b',int(m.group(),8))); i+=1+m.end()
        else: raise Exception(body)
    return out
def to_bytes(items):
    b=b''
    for k,v in items: b+= bytes([v]) if k=='b' else chr(v).encode('utf8')
    return b
TOK=re.compile(r'''\s*(?:(R"\((?P<raw>.*?)\)")|((?:u8|U)?"(?P<str>(?:[^"\\]|\\.)*)")|([uU]?'(?P<chr>(?:[^'\\]|\\.)+)')|(?P<num>-?(?:0x[0-9A-Fa-f]+|\d+))|(?P<id>[A-Za-z_][\w:]*)|(?P<op>==|<|>|!|[(){},.&*]))''')
def lex(s):
    pos=0; toks=[]
    while s[pos:].strip():
        m=TOK.match(s,pos)
        if not m: raise Exception('lex: '+s[pos:])
        pos=m.end()
        if m.group('raw') is not None: toks.append(('s',m.group('raw').encode('utf8')))
        elif m.group('str') is not None:
            it=unescape(m.group('str'))
            if m.group(0).strip().startswith('U"'): toks.append(('u32',[v for _,v in it]))
            else: toks.append(('s',to_bytes(it)))
        elif m.group('chr') is not None: toks.append(('n',unescape(m.group('chr'))[0][1]))
        elif m.group('num') is not None: toks.append(('n',int(m.group('num'),0)))
        elif m.group('id') is not None:
            i=m.group('id')
            if i in MACROS: toks.append(('s',to_bytes(unescape(MACROS[i][1:-1]))))
            else: toks.append(('id',i.replace('ystring::','') if i.startswith('ystring::') else i))
        else: toks.append(('op',m.group('op')))
    # adjacent literals
    out=[]
    for t in toks:
        if t[0]=='s' and out and out[-1][0]=='s': out[-1]=('s',out[-1][1]+t[1])
        else: out.append(t)
    return out
class P:
    def __init__(s,toks): s.t=toks; s.i=0
    def peek(s): return s.t[s.i] if s.i<len(s.t) else (None,None)
    def get(s): x=s.t[s.i]; s.i+=1; return x
    def prim(s):
        k,v=s.get()
        if (k,v)==('op','!'): return ('not',s.prim())
        if (k,v)==('op','*'): return ('deref',s.prim())
        if k in ('s','n','u32'): e=(k,v)
        elif (k,v)==('op','{'): e=('brace',s.args('}'))
        elif k=='id':
            if s.peek()==('op','('): s.get(); a=s.args(')'); e=(a[0] if v=='U8' else ('call',v,a))
            elif s.peek()==('op','{'): s.get(); e=('call',v,s.args('}'))
            else: e=('id',v)
        else: raise Exception((k,v))
        while s.peek()==('op','.'):
            s.get(); _,f=s.get()
            if s.peek()==('op','('): s.get(); s.args(')'); 
            e=('.',e,f)
        return e
    def args(s,close):
        a=[]
        while s.peek()!=('op',close):
            a.append(s.expr())
            if s.peek()==('op',','): s.get()
        s.get(); return a
    def expr(s):
        l=s.prim()
        if s.peek()[0]=='op' and s.peek()[1] in ('==','<','>'):
            op=s.get()[1]; return ('bin',op,l,s.prim())
        return l
BT=lambda b:'['+'; '.join('x%02x'%c for c in b)+']'
def N(e): return str(e[1])
def Z(e): return '(%d)'%e[1] if e[1]<0 else str(e[1])
env={}
def S(e):
    if e[0]=='id': e=env[e[1]]
    assert e[0]=='s',e
    return BT(e[1])
def U(e):
    if e[0]=='id': e=env[e[1]]
    if e[0]=='u32' : return '['+'; '.join(str(x) for x in e[1])+']'
    if e[0]=='brace': return '['+'; '.join(N(x) for x in e[1])+']'
    raise Exception(e)
NPOS='npos'; MAXZ='PTRDIFF_MAX'
def opts(a,i):
    if len(a)<=i: return 'SIZE_MAX false'
    e=a[i]
    if e==('id','IGNORE_EMPTY'): return 'SIZE_MAX true'
    assert e[0]=='brace'
    return N(e[1][0])+(' true' if len(e[1])>1 else ' false')
def opt(a,i,f,d): return f(a[i]) if len(a)>i else d
AFTER='[0]'
# name -> (translation, kind of result)
def call(e):
    _,n,a=e
    ci=n.startswith('case_insensitive::'); b=n.split('::')[-1]; p='ci_' if ci else ''
    if b in ('compare',): return 'ci_compare %s %s'%(S(a[0]),S(a[1])),'int'
    if b in ('equal','less','starts_with','ends_with'): return '%s%s %s %s'%(p,b,S(a[0]),S(a[1])),'bool'
    if b=='contains': return 'contains %s %s'%(S(a[0]),N(a[1])),'bool'
    if b in ('find_first','find_last'):
        return '%s%s %s %s %s'%(p,b,S(a[0]),S(a[1]),opt(a,2,N,'0' if b=='find_first' else NPOS)),'sub'
    if b in ('find_first_of','find_last_of'):
        return '%s%s %s %s %s'%(p,b,S(a[0]),U(a[1]),'0' if b=='find_first_of' else NPOS),'subchr'
    if b in ('find_first_newline','find_last_newline'):
        return '%s %s %s %s'%(b,AFTER,S(a[0]),opt(a,1,N,'0' if 'first' in b else NPOS)),'sub'
    if b=='replace': return '%sreplace %s %s %s %s'%(p,S(a[0]),S(a[1]),S(a[2]),opt(a,3,Z,MAXZ)),'str'
    if b in ('count_chars','count_codepoints'): return '%s %s'%(b,S(a[0])),'num'
    if b in ('get_char_pos','get_codepoint_pos'): return '%s %s %s'%(b,S(a[0]),Z(a[1])),'num'
    if b=='get_char_range': return '%s %s %s'%(b,S(a[0]),Z(a[1])),'sub'
    if b in ('get_next_char_range','get_prev_char_range'): return '%s %s %s'%(b,S(a[0]),N(a[1])),'sub'
    if b=='get_codepoint': return '%s %s %s'%(b,S(a[0]),Z(a[1])),'subchr'
    if b in ('get_char_substring','get_codepoint_substring'):
        return '%s %s %s %s'%(b,S(a[0]),Z(a[1]),opt(a,2,Z,MAXZ)),'str'
    if b in ('insert_char','insert_codepoint'): return '%s %s %s %s'%(b,S(a[0]),Z(a[1]),N(a[2])),'str'
    if b in ('insert_chars','insert_codepoints'): return '%s %s %s %s'%(b,S(a[0]),Z(a[1]),S(a[2])),'str'
    if b=='is_valid_utf8': return 'is_valid_utf8 %s'%S(a[0]),'bool'
    if b in ('replace_chars','replace_codepoints'): return '%s %s %s %s %s'%(b,S(a[0]),Z(a[1]),Z(a[2]),S(a[3])),'str'
    if b=='replace_codepoint': return '%s %s %s %s %s'%(b,S(a[0]),N(a[1]),N(a[2]),opt(a,3,Z,MAXZ)),'str'
    if b=='replace_invalid_utf8':
        return 'replace_invalid_utf8%s %s %s'%('_inplace' if a[0]==('id','s') else '',S(a[0]),N(a[1])),'str'
    if b in ('reverse','escape_json','unescape','to_utf32'): return '%s %s'%(b,S(a[0])),('u32' if b=='to_utf32' else 'str')
    if b=='append': return 'append %s %s'%(S(a[0]),N(a[1])),'str'
    if b=='split':
        if a[1]==('id','chars'): return 'split_chars %s %s %s'%(S(a[0]),U(a[1]),opts(a,2)),'strs'
        return '%ssplit_sep %s %s %s'%(p,S(a[0]),S(a[1]),opts(a,2)),'strs'
    if b=='split_lines': return 'split_lines %s %s %s'%(AFTER,S(a[0]),opts(a,1)),'strs'
    if b in ('trim','trim_start','trim_end'): return '%s %s %s'%(b,S(a[0]),U(a[1])),'str'
    if b=='get_char_class': return 'get_char_class %s'%N(a[0]),'cls'
    if b in ('to_lower','to_upper','to_title'):
        if a[0][0]=='n': return '%s %s'%(b,N(a[0])),'purenum'
        return '%s_str %s'%(b,S(a[0])),'str'
    if b=='to_decomposed': return 'to_decomposed 100 %s'%S(a[0]),'str'
    if b=='to_composed': return 'to_composed true %s'%S(a[0]),'str'
    if b=='decompose': return 'decompose %s'%N(a[0]),'u32'
    if b=='from_utf32':
        return ('from_utf32_char %s'%N(a[0]) if a[0][0]=='n' else 'from_utf32 %s'%U(a[0])),'purestr'
    if b=='has_escaped_chars': return 'has_escaped_chars %s'%S(a[0]),'bool'
    raise Exception(e)
def SUB(e): assert e[1]=='Subrange'; return '(Sub %s %s)'%(N(e[2][0]),N(e[2][1]))
def require(e):
    """assertion -> Coq proposition"""
    if e[0]=='bin':
        _,op,l,r=e
        c,k=call(l)
        if op in '<>': assert k=='int'; return 'exists z, %s = Ok z /\\ (%s)%%Z'%(c,'z > 0' if op=='>' else 'z < 0')
        if k=='int': return '%s = Ok %s%%Z'%(c,Z(r))
        if k=='sub': return '%s = Ok %s'%(c,SUB(r))
        if k=='num': return '%s = Ok %s'%(c,'npos' if r==('id','std::string_view::npos') else N(r))
        if k=='purenum': return '%s = %s'%(c,N(r))
        if k=='str': return '%s = Ok %s'%(c,S(r))
        if k=='purestr': return '%s = %s'%(c,S(r))
        if k=='u32': return '%s = Ok %s'%(c,U(r))
        if k=='strs': return '%s = Ok [%s]'%(c,'; '.join(S(x) for x in r[2][0][1]))
        if k=='cls': return '%s = Ok CharClass.%s'%(c,r[1].split('::')[-1])
        raise Exception(e)
    if e[0]=='not':
        x=e[1]
        if x[0]=='.' and x[2]=='first':
            c,k=call(x[1]); assert k=='subchr'; return 'exists r, %s = Ok r /\\ sub_bool (fst r) = false'%c
        c,k=call(x)
        if k=='sub': return 'exists r, %s = Ok r /\\ sub_bool r = false'%c
        if k=='bool': return '%s = Ok false'%c
        raise Exception(e)
    if e[0]=='.' and e[2]=='empty':
        c,k=call(e[1]); return '%s = Ok []'%c
    c,k=call(e); assert k=='bool',e
    return '%s = Ok true'%c
out=[]; count=0
def emit(name,prop):
    global count; count+=1
    t = 'repeat (eexists || split); vm_compute; reflexivity' if prop.startswith('exists') else 'vm_compute; reflexivity'
    out.append('Example %s :\n  %s.\nProof. %s. Qed.'%(name,prop,t))
def statements(src):
    """yield (line, statement)"""
    i=0; line=1
    src=re.sub(r'//[^\n]*','',src)
    for m in re.finditer(r'(?:REQUIRE(?:_FALSE|_THROWS_AS|_THROWS)?|CHECK_CHAR_SEARCH|test\w+)\s*\(|(?:char32_t \w+\[\d*\] = |std::string(?:_view)? \w+(?: = |\()|auto \w+ = |\b(?:sub|c|result) = |std::string s;)|std::string_view strings\[\] = ',src):
        e=src.index(';',m.start())
        # a ';' inside a literal or a lambda
        depth=0; j=m.start(); inq=None
        while True:
            ch=src[j]
            if inq:
                if ch=='\\' and not src[j-3:j].endswith('R"(') and not inq=='R': j+=1
                elif inq=='R' and src.startswith(')"',j): inq=None; j+=1
                elif inq==ch: inq=None
            elif src.startswith('R"(',j): inq='R'; j+=2
            elif ch in '"\'': inq=ch
            elif ch in '({': depth+=1
            elif ch in ')}': depth-=1
            elif ch==';' and depth==0: break
            j+=1
        yield src.count('\n',0,m.start())+1, ' '.join(src[m.start():j].split('\n'))
NAMES=['Algorithms','CharClass','ConvertCase','DecodeUtf8','EncodeUtf8','Escape','Normalize','Unescape','Utf32']
for f in NAMES:
    src=open('%s/test_%s.cpp'%(D,f)).read()
    body=src[src.index('TEST_CASE'):]
    off=src[:src.index('TEST_CASE')].count('\n')
    out.append('(** ** tests/YstringTest/test_%s.cpp *)'%f)
    env.clear(); pending=None; last=None; sub=None
    done=0
    for line,st in statements(body):
        line+=off; name='test_%s_%d'%(f,line); st=re.sub(r'\s+',' ',st) if 'R"' not in st and '"' not in st else st
        if st.startswith('char32_t'):
            m=re.match(r'char32_t (\w+)\[\d*\] = (.*)$',st); env[m.group(1)]=P(lex(m.group(2))).expr()
            env['CHAR_SPAN']=env[m.group(1)]; continue
        if st.startswith('std::string_view strings'):
            env['strings']=P(lex(st.split('=',1)[1])).expr(); continue
        m=re.match(r'std::string(?:_view)? (\w+)(?: = |\()(.*?)\)?$',st)
        if st=='std::string s': env['s']=('s',b''); continue
        if m:
            t=m.group(2)
            if t.startswith('U8') or t.startswith('R"'): t+=')' if not t.endswith(')"') else ''
            if t.count('(')<t.count(')') : t=t[:-1]
            env[m.group(1)]=P(lex(t)).expr(); cur=env[m.group(1)]; continue
        if st.startswith('test'):
            fn=st[:st.index('(')]; a=P(lex(st)).expr()[2]
            s=a[0]
            if s[0]=='call': s=s[2][0]          # std::string_view("\0", 1)
            if s==('brace',[]): s=('s',b'')
            if fn=='testEncodeArray':
                s=a[1]; s=s[2][0] if s[0]=='call' else s
                if s==('brace',[]): s=('s',b'')
                emit(name,'encode_utf8_buf %s 4 = (%s, %d)'%(N(a[0]),S(s),len(s[1]))); continue
            ln=len(s[1])
            if fn=='testValidNext': k=a[2][1] if len(a)>2 else ln; emit(name,'decode_next %s 0%%nat = Ok (%s, %d%%nat)'%(S(s),N(a[1]),k))
            elif fn=='testInvalidNext': emit(name,'decode_next %s 0%%nat = Ok (INVALID_CHAR, 0%%nat)'%S(s))
            elif fn=='testValidPrev': k=a[2][1] if len(a)>2 else ln; emit(name,'decode_prev %s %d%%nat = Ok (%s, %d%%nat)'%(S(s),ln,N(a[1]),ln-k))
            elif fn=='testInvalidPrev' and (f,line)==('DecodeUtf8',167):
                # the seventh continuation byte is shifted by 36 bits in a 32-bit type (C05): the
                # test passes in practice, but the behaviour it relies on is undefined
                out.append('(** The assertion relies on undefined behaviour: see C05.  The authors expect\n    [Ok (INVALID_CHAR, 8)]. *)')
                emit(name,'decode_prev %s %d%%nat = UB'%(S(s),ln))
            elif fn=='testInvalidPrev': emit(name,'decode_prev %s %d%%nat = Ok (INVALID_CHAR, %d%%nat)'%(S(s),ln,ln))
            elif fn=='testSkipNext': emit(name,'skip_next %s 0%%nat = Ok %s'%(S(s),'None' if a[1][1]==0 else '(Some %d%%nat)'%a[1][1]))
            elif fn=='testSkipPrev': emit(name,'skip_prev %s %d%%nat = Ok %s'%(S(s),ln,'None' if a[1][1]==0 else '(Some %d%%nat)'%(ln-a[1][1])))
            else: raise Exception(fn)
            continue
        if st.startswith('CHECK_CHAR_SEARCH'):
            a=P(lex(st)).expr()[2]; c,k=call(a[0]); assert k=='subchr'
            emit(name,'%s = Ok (Sub %s %s, %s)'%(c,N(a[1]),N(a[2]),N(a[3]))); continue
        # --- stateful tests
        if 'find_first_where' in st or 'find_last_where' in st:
            lit=P(lex(re.search(r'U8\("[^"]*"\)',st).group())).expr(); o=re.search(r'\}, (\d+)\)',st)
            fn='find_first_where' if 'first_where' in st else 'find_last_where'
            where='%s %s is_upper %s'%(fn,S(lit),o.group(1) if o else ('0' if 'first' in fn else NPOS)); continue
        m=re.match(r'REQUIRE\(result\.(first|second) == (.*)\)$',st)
        if m:
            v=P(lex(m.group(2))).expr()
            if m.group(1)=='first': wsub=SUB(v)
            else: emit(name,'%s = Ok (%s, %s)'%(where,wsub,N(v)))
            continue
        if 'find_first_escaped_char' in st:
            prev_end=0 if st.endswith(', 0)') else sub_end; continue
        if st.startswith('REQUIRE(str.substr'):
            want=P(lex(st.split('==',1)[1].rstrip(')'))).expr()[1]; h=env['str'][1]
            o=h.index(want,prev_end); sub_end=o+len(want)
            t=S(env['str'])
            emit(name,'exists r, find_first_escaped_char %s %d = Ok r /\\ substr %s (sub_offset r) (sub_length r) = Ok %s%s'%(
                t,prev_end,t,BT(want),'' if sub_end==len(h) else ' /\\ sub_end r = %d'%sub_end)); continue
        if re.match(r'(auto )?c = ystring::unescape_next\(str\)',st): pending=('next',S(cur)); res=None; continue
        m=re.match(r'REQUIRE\((!?)(?:ystring::)?((?:remove|pop)(?:_last)?_utf8_codepoint|unescape_next)\(str\)(?: == (.*))?\)$',st)
        if m:
            neg,fn,v=m.groups(); pending=(fn,S(cur))
            if fn=='unescape_next': emit(name,'fst (unescape_next %s) = (Ok None, [])'%S(cur)); pending=None
            elif fn.startswith('remove'): res='false' if neg else 'true'
            else: res='None' if neg else 'Some %s'%N(P(lex(v)).expr())
            continue
        if st=='REQUIRE(c)': continue
        if st=='REQUIRE(!c)': res='None'; continue
        m=re.match(r'REQUIRE\(\*c == (.*)\)$',st)
        if m: res='Some %s'%N(P(lex(m.group(1))).expr()); continue
        m=re.match(r'REQUIRE\(str(?: == (.*)|(\.empty\(\)))\)$',st)
        if m and pending:
            cur=P(lex(m.group(1))).expr() if m.group(1) else ('s',b''); env['str']=cur
            fn,was=pending
            if fn=='next': emit(name,'fst (unescape_next %s) = (Ok (%s), %s)'%(was,res,S(cur)))
            elif fn=='throws': emit(name,'fst (unescape_next %s) = (Throw YstringException, %s)'%(was,S(cur)))
            else: emit(name,'%s %s = Ok (%s, %s)'%(fn,was,res,S(cur)))
            pending=None; continue
        if st.startswith('REQUIRE_THROWS_AS(ystring::unescape_next(str)'):
            emit(name,'fst (fst (unescape_next %s)) = Throw YstringException'%S(cur)); pending=('throws',S(cur)); continue
        if st.startswith('REQUIRE_THROWS'):
            e=P(lex(st)).expr()[2][0]; c,k=call(e); emit(name,'exists x, %s = Throw x'%c); continue
        if st.startswith('REQUIRE_FALSE'):
            e=P(lex(st)).expr()[2][0]; emit(name,require(('not',e))); continue
        if 'std::begin(strings)' in st:
            strs='['+'; '.join(S(x) for x in env['strings'][1])+']'
            if 'empty' in st: emit(name,'join [] %s = []'%BT(b', '))
            else: emit(name,'join %s %s = %s'%(strs,BT(b', '),BT(b'Lorem, ipsum, dolor, sit, amet')))
            continue
        if st.startswith('REQUIRE(s == '):
            v=P(lex(st[len('REQUIRE(s == '):-1])).expr(); assert v==env['s']; continue
        e=P(lex(st)).expr(); assert e[1]=='REQUIRE',st
        e=e[2][0]
        emit(name,require(e))
        if e[0]=='bin' and e[2][0]=='call' and e[2][2] and e[2][2][0]==('id','s') and e[2][1] in ('append','replace_invalid_utf8'): env['s']=e[3]
head='''(** GENERATED by tools/gen_repo_tests.py from /repo/tests/YstringTest/test_*.cpp.
    The project's own unit tests, evaluated on the model (%d of them).  They check
    that the model computes what the authors expect of the code; they are tests,
    and nothing in Properties/ rests on them. *)
From Coq Require Import List NArith ZArith Bool.
From Coq.Strings Require Import Byte.
From Verif Require Import Base.
From Verif.Model Require Import Decode Encode Subrange Search Split CharClass ConvertCase
  Chars CaseInsensitive Escape Unescape Normalize.
Import ListNotations.
Open Scope N_scope.

'''%count
open(OUT,'w').write(head+'\n'.join(out)+'\n'); print(count)
