"""A small parser and evaluator for the literal test tables of /repo's Rust unit tests.
It covers the expression subset used there: literals, paths, calls, struct literals, vec!/arrays,
tuples, method calls, field access, unary/binary arithmetic and casts."""
import re
TOK=re.compile(r'''\s+|//[^\n]*|/\*.*?\*/|(?P<str>"(?:[^"\\]|\\.)*")|(?P<num>\d[\d_]*(?:u8|u16|u32|u64|u128|i8|i16|i32|i64|i128|usize)?)|(?P<id>[A-Za-z_]\w*!?)|(?P<op>::|=>|\.\.=|\.\.|->|==|!=|<=|>=|&&|\|\||[-+*/%.,;:(){}\[\]<>&|=!?#'])''',re.S)
def tokenize(s):
    out=[];i=0
    while i<len(s):
        m=TOK.match(s,i)
        if not m: raise SyntaxError(s[i:i+40])
        if m.lastgroup:
            t=m.group(m.lastgroup)
            # `x!=y` must not lex as macro
            if m.lastgroup=='id' and t.endswith('!') and s[m.end():m.end()+1]=='=': t=t[:-1]; out.append(('id',t)); i=m.end()-1; continue
            out.append((m.lastgroup,t))
        i=m.end()
    out.append(('eof','')); return out
class P:
    def __init__(self,toks): self.t=toks; self.i=0
    def pk(self,k=0): return self.t[self.i+k][1]
    def kind(self,k=0): return self.t[self.i+k][0]
    def nx(self): x=self.t[self.i]; self.i+=1; return x[1]
    def eat(self,s):
        if self.pk()!=s or self.kind()=='str': raise SyntaxError(f"expected {s} got {self.pk()} near {[x[1] for x in self.t[max(0,self.i-8):self.i+8]]}")
        self.i+=1
    def at(self,s): return self.kind()!='str' and self.pk()==s
    def expr(self,st=True): return self.binop(0,st)
    LV=[('||',),('&&',),('==','!=','<','>','<=','>='),('+','-'),('*','/','%')]
    def binop(self,l,st):
        if l==len(self.LV): return self.cast(st)
        a=self.binop(l+1,st)
        while self.kind()=='op' and self.pk() in self.LV[l]:
            o=self.nx(); b=self.binop(l+1,st); a=('bin',o,a,b)
        return a
    def cast(self,st):
        a=self.unary(st)
        while self.at('as') : self.nx(); self.typ(); 
        return a
    def typ(self):
        n=0
        while True:
            if self.at('<'): n+=1
            elif self.at('>'): 
                n-=1; self.nx()
                if n==0: return
                continue
            elif n==0 and self.kind()=='id':
                self.nx()
                if self.at('::') : self.nx(); continue
                if self.at('<'): continue
                return
            elif n==0: raise SyntaxError('type '+self.pk())
            self.nx()
    def unary(self,st):
        if self.at('&') or self.at('*'):
            self.nx()
            if self.at('mut'): self.nx()
            return self.unary(st)
        if self.at('-') or self.at('!'): o=self.nx(); return ('un',o,self.unary(st))
        return self.post(st)
    def args(self,close):
        r=[]
        while not self.at(close):
            r.append(self.expr())
            if self.at(','): self.nx()
            elif self.at(';'): self.nx(); n=self.expr(); self.eat(close); return ('rep',r[0],n)
        self.eat(close); return r
    def post(self,st):
        a=self.atom(st)
        while True:
            if self.at('.'):
                self.nx(); n=self.nx()
                if self.at('::'):
                    self.nx(); self.eat('<'); d=1
                    while d: 
                        x=self.nx(); d+= (x=='<')-(x=='>')
                if self.at('('): self.nx(); a=('meth',a,n,self.args(')'))
                else: a=('field',a,n)
            elif self.at('?'): self.nx()
            elif self.at('('): self.nx(); a=('call',a,self.args(')'))
            elif self.at('['): self.nx(); i=self.expr(); self.eat(']'); a=('index',a,i)
            else: return a
    def block(self):
        # skip a balanced block, return tokens
        self.eat('{'); d=1; s=self.i
        while d:
            x=self.nx()
            if self.t[self.i-1][0]=='op': d+=(x=='{')-(x=='}')
        return self.t[s:self.i-1]
    def atom(self,st):
        k,t=self.kind(),self.pk()
        if k=='str': self.nx(); return ('str',eval(t))
        if k=='num': self.nx(); return ('num',int(re.sub(r'(u8|u16|u32|u64|u128|i8|i16|i32|i64|i128|usize)$','',t).replace('_','')))
        if t=='(':
            self.nx(); r=[];comma=False
            while not self.at(')'):
                r.append(self.expr())
                if self.at(','): self.nx(); comma=True
            self.eat(')')
            return r[0] if len(r)==1 and not comma else ('tup',r)
        if t=='[': self.nx(); return ('list',self.args(']'))
        if t in('vec!',): 
            self.nx(); o=self.nx(); return ('list',self.args({'[':']','(':')'}[o]))
        if t=='format!': self.nx(); self.eat('('); return ('fmt',self.args(')'))
        if t=='|' or t=='||' or t=='move': # closure: params then expr
            while not self.at('|') and not self.at('||'): self.nx()
            ps=[]
            if self.nx()=='|':
                while not self.at('|'): 
                    x=self.nx()
                    if re.match(r'[A-Za-z_]\w*$',x): ps.append(x)
                self.nx()
            b=('blk',self.block()) if self.at('{') else self.expr()
            return ('clo',ps,b)
        if t=='if':
            self.nx(); c=self.expr(False); self.eat('{'); a=self.expr(); self.eat('}'); self.eat('else'); self.eat('{'); b=self.expr(); self.eat('}'); return ('if',c,a,b)
        if k=='id':
            path=[self.nx()]
            while self.at('::'):
                self.nx()
                if self.at('<'):
                    d=0
                    while True:
                        x=self.nx(); d+=(x=='<')-(x=='>')
                        if d==0: break
                else: path.append(self.nx())
            if self.at('{') and st and path[-1][0].isupper():
                self.nx(); f={}
                while not self.at('}'):
                    if self.at('..'): self.nx(); f['..']=self.expr()
                    else:
                        n=self.nx()
                        if self.at(':'): self.nx(); f[n]=self.expr()
                        else: f[n]=('path',[n])
                    if self.at(','): self.nx()
                self.eat('}'); return ('struct',path,f)
            return ('path',path)
        raise SyntaxError(f"atom {t}: {[x[1] for x in self.t[max(0,self.i-8):self.i+8]]}")

class Raw(str): pass          # a Coq term
class S:                      # struct value
    def __init__(self,n,f): self.n=n; self.f=f
def test_body(src,name):
    m=re.search(r'fn '+name+r'\([^)]*\)[^{]*\{',src); 
    p=P(tokenize(src[m.end()-1:])); return p.block()
def lets(toks,ev,stop='for'):
    """evaluate the leading `let x = e;` statements of a test body; returns env"""
    p=P(toks+[('eof','')]); env={}
    while p.at('let'):
        p.nx()
        if p.at('mut'): p.nx()
        n=p.nx()
        if p.at(':'):
            while not p.at('='): p.nx()
        p.eat('='); e=p.expr(); p.eat(';')
        env[n]=ev(e,env)
    return env
def structs(src):
    r={}
    for m in re.finditer(r'struct (\w+) \{(.*?)\n\s*\}\n',src,re.S):
        r[m.group(1)]=re.findall(r'^\s*(?:pub )?(\w+):',re.sub(r'//[^\n]*','',m.group(2)),re.M)
    return r
