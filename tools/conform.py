"""Translates the literal test tables of /repo's own unit tests into Coq (theories/Conf*Cases.v).
The loops of the tests are written by hand in Conf*.v; only the tables are generated."""
import re,sys
sys.path.insert(0,'/verif/tools')
from rust import *
R='/repo/contracts/sumtree-orderbook/src/'
DEC=10**18
class Some:
    def __init__(s,v): s.v=v
CONST={'BASE_DENOM':'base','QUOTE_DENOM':'quote','DEFAULT_OWNER':'owner','DEFAULT_SENDER':'sender','LARGE_POSITIVE_TICK':1000000,'LARGE_NEGATIVE_TICK':-5000000,
 'MIN_TICK':-108000000,'MAX_TICK':182402823,'EXPECTED_SWAP_FEE':0,'MAX_BATCH_CLAIM':100,'EXPONENT_AT_PRICE_ONE':-6,
 'REPLY_ID_REFUND':1,'REPLY_ID_CLAIM':2,'REPLY_ID_CLAIM_BOUNTY':3,'REPLY_ID_MAKER_FEE':4,'REPLY_ID_SUDO_SWAP_EXACT_IN':5,
 'MAX_MAKER_FEE_PERCENTAGE':5*10**16,'true':True,'false':False,'None':None,'DEFAULT_MAKER_FEE':0}
ERRS={'Std':'EStd','Overflow':'EOverflow','PaymentError':'EPayment','ConversionOverflow':'EConversion'}
def dec(s):
    a,_,b=s.partition('.'); return int(a)*DEC+int((b+'0'*18)[:18])
def order(t,i,d,o,q,e,b): return S('order',dict(tick_id=t,order_id=i,order_direction=d,owner=o,quantity=q,etas=e,claim_bounty=b,placed_quantity=q))
def send(m,reply=None):
    c=m.f['amount'][0]
    r=S('send',dict(reply=reply,to=m.f['to_address'],coin=c)); 
    if 'from_address' in m.f: assert m.f['from_address']=='cosmos2contract',m.f['from_address']
    return r
def bindp(ps,x): return {ps[0]:x} if len(ps)==1 else dict(zip(ps,x))
def ev(e,env):
    k=e[0]
    if k in('str','num'): return e[1]
    if k=='tup': return tuple(ev(x,env) for x in e[1])
    if k=='list':
        if isinstance(e[1],tuple): return [ev(e[1][1],env)]*ev(e[1][2],env)
        return [ev(x,env) for x in e[1]]
    if k=='un': v=ev(e[2],env); return -v if e[1]=='-' else (not v)
    if k=='bin':
        a,b=ev(e[2],env),ev(e[3],env); o=e[1]
        return {'+':lambda:a+b,'-':lambda:a-b,'*':lambda:a*b,'/':lambda:a//b,'==':lambda:a==b,'<=':lambda:a<=b,'>=':lambda:a>=b,'<':lambda:a<b,'>':lambda:a>b,'&&':lambda:a and b}[o]()
    if k=='if': return ev(e[2] if ev(e[1],env) else e[3],env)
    if k=='fmt': return 'formatted'
    if k=='clo': return e
    if k=='struct':
        n=e[1]; f={x:ev(y,env) for x,y in e[2].items()}
        if n[0]=='ContractError': return Raw(ERRS.get(n[-1],'E'+n[-1]))
        if n[0] in('PaymentError','OverflowError','StdError','ConversionOverflowError','AuthExecuteMsg','AuthQueryMsg','ExecuteMsg','SudoMsg'): return S('::'.join(n),f)
        return S(n[-1],f)
    if k=='path':
        n=e[1]
        if len(n)==1 and n[0] in env: return env[n[0]]
        if len(n)==1 and n[0] in CONST: return CONST[n[0]]
        if n[0]=='OrderDirection': return Raw(n[1])
        if n[0]=='ContractError': return Raw(ERRS.get(n[1],'E'+n[1]))
        if n[0]=='RoundingDirection': return Raw('R'+n[1])
        if n==['Uint128','MAX']: return 2**128-1
        if n==['Uint256','MAX'] or n==['Decimal256','MAX']: return 2**256-1
        if n==['Decimal256','MIN'] or n==['u32','MIN']: return 0
        if n==['u32','MAX']: return 2**32-1
        if n[0] in('OverflowOperation','PaymentError'): return None
        return S('::'.join(n),{})
    if k=='call':
        f=e[1]; a=[ev(x,env) for x in e[2]] if isinstance(e[2],list) else None
        n='::'.join(f[1]) if f[0]=='path' else None
        if n in('Uint128::from','Uint128::new','Uint256::from','Uint256::from_u128','Uint256::from_uint128','Addr::unchecked','Uint64::from'): return a[0]
        if n in('Uint128::zero','Uint256::zero','Decimal256::zero','Decimal::zero'): return 0
        if n in('Uint128::one','Uint256::one'): return 1
        if n in('Decimal256::one','Decimal::one'): return DEC
        if n in('Decimal256::percent','Decimal::percent'): return a[0]*10**16
        if n in('Decimal256::from_str','Decimal::from_str'): return dec(a[0])
        if n in('Decimal256::from_ratio','Decimal::from_ratio'): return a[0]*DEC//a[1]
        if n=='decimal256_from_u128': return a[0]*DEC
        if n=='max_spot_price': return 340282300000000000000*DEC
        if n=='min_spot_price': return 10**6
        if n=='Some': return Some(a[0])
        if n=='Ok': return Some(a[0])
        if n in('LimitOrder::new',): return order(*a)
        if n=='MarketOrder::new': return (a[0],a[1])
        if n in('coin_u256','coin'): return S('coin',dict(denom=a[1],amount=a[0]))
        if n=='SubMsg::reply_on_error': return send(a[0],a[1])
        if n=='mock_info': return S('info',dict(sender=a[0],funds=a[1]))
        if n=='mock_env': return S('env',{'contract':S('c',{'address':'cosmos2contract'}),'block':S('b',{'time':1571797419879305533})})
        if n=='generate_limit_orders': 
            return [order(t,0,a[3],'owner',a[2],0,None) for t in a[0] for _ in range(a[1])]
        if n=='generate_tick_ids': return list(range(a[0]))
        if n and n.startswith('OrderOperation::'):
            v=a[0]; o=n.split('::')[1]
            if o=='PlaceLimit': return Raw(f"OpPlace ({coq(v)})")
            if o=='RunMarket': return Raw(f"OpMarket {coq(v[0])} {coq(v[1])}")
            if o=='PlaceLimitMulti': return Raw(f"OpMulti {coq(v[0])} {v[1]} {coq(v[2])} {coq(v[3])}")
            return Raw(f"Op{o} {coq(v[0])} {coq(v[1])}")
        if n and n.startswith('ContractError::'): return Raw(ERRS.get(n.split('::')[1],'E'+n.split('::')[1]))
        if n=='NodeType::leaf_uint256': return Raw(f"(NLeaf {coq(a[1]*DEC)} {coq(a[0]*DEC)})")
        if n=='NodeType::leaf': return Raw(f"(NLeaf {coq(a[1])} {coq(a[0])})")
        if n=='NodeType::internal_uint256': return Raw(f"(NInternal {coq(a[0]*DEC)} {coq(a[1][0]*DEC)} {coq(a[1][1]*DEC)} 0)")
        if n=='NodeType::internal': return Raw(f"(NInternal {coq(a[0])} {coq(a[1][0])} {coq(a[1][1])} 0)")
        if n and n.split('::')[0] in('PaymentError','StdError','OverflowError'): return Raw(n)
        if n=='build_tick_values': return S('TickValues',dict(total_amount_of_liquidity=a[0]*DEC,cumulative_total_value=(a[0]+a[1])*DEC,effective_total_amount_swapped=0,cumulative_realized_cancels=0,last_tick_sync_etas=0))
        if n=='TickValues::default': return S('TickValues',dict(total_amount_of_liquidity=0,cumulative_total_value=0,effective_total_amount_swapped=0,cumulative_realized_cancels=0,last_tick_sync_etas=0))
        if n=='TreeNode::new': return S('node',dict(tick=a[0],dir=a[1],key=a[2],left=None,right=None,parent=None,type=a[3]))
        if n=='ExecuteMsg::Auth': return Raw('AuthMsg ('+coq(a[0])+')')
        h=env.get('@'+str(n))
        if h: return h(*a)
        raise NotImplementedError('call '+str(n))
    if k=='field':
        v=ev(e[1],env); return v.f[e[2]]
    if k=='meth':
        m=e[2]
        if m=='into_iter' or m=='iter' : return ev(e[1],env)
        v=ev(e[1],env); a=[ev(x,env) for x in e[3]]
        if m in('clone','to_string','unwrap','as_str','to_owned','into','as_ref','u128','into_string','cloned','collect'): return v
        if m in('checked_sub',): return v-a[0]
        if m in('checked_add',): return v+a[0]
        if m in('checked_pow',): return v**a[0]
        if m in('checked_mul',): return v*a[0]
        if m=='inv': return DEC*DEC//v
        if m=='opposite': return Raw('Ask' if v=='Bid' else 'Bid')
        if m=='with_placed_quantity': v.f['placed_quantity']=a[0]; return v
        if m=='with_children': v.f['left'],v.f['right']=a; return v
        if m=='with_parent': v.f['parent']=Some(a[0]); return v
        if m=='with_placed_at': return v
        if m=='into': return v
        if m=='map' and a[0][0]=='clo':
            return [ev(a[0][2],{**env,**bindp(a[0][1],x)}) for x in v]
        if m=='enumerate': return [(i,x) for i,x in enumerate(v)]
        if m=='filter': return [x for x in v if ev(a[0][2],{**env,**bindp(a[0][1],x)})]
        h=env.get('@.'+m)
        if h: return h(v,*a)
        raise NotImplementedError('meth '+m)
    raise NotImplementedError(k)
STR={}
def coq(v):
    if isinstance(v,Raw): return str(v)
    if isinstance(v,bool): return 'true' if v else 'false'
    if isinstance(v,int): return f"({v})" if v<0 else (f"({v//DEC} * DEC)" if v>=DEC and v%DEC==0 and v//DEC<10**40 else str(v))
    if isinstance(v,str): return '"'+v.replace('"','""')+'"'
    if isinstance(v,Some): return f"(Some {par(coq(v.v))})"
    if v is None: return 'None'
    if isinstance(v,list) and len(v)>5 and len(set(map(coq,v)))==1: return f"(repeat ({coq(v[0])}) {len(v)})"
    if isinstance(v,list): return '['+'; '.join(coq(x) for x in v)+']'
    if isinstance(v,tuple): return '('+', '.join(coq(x) for x in v)+')'
    if isinstance(v,S):
        f=v.f
        if v.n=='order': return f"mkOrder {coq(f['tick_id'])} {coq(f['order_id'])} {coq(f['order_direction'])} {coq(f['owner'])} {coq(f['quantity'])} {coq(f['etas'])} {coq(f['claim_bounty'])} {coq(f['placed_quantity'])} ttime"
        if v.n=='InstantiateMsg': return f"({coq(f['quote_denom'])}, {coq(f['base_denom'])})"
        if v.n=='ExecuteMsg::PlaceLimit': return 'PlaceLimit '+' '.join(par(coq(f[x])) for x in('tick_id','order_direction','quantity','claim_bounty'))
        if v.n=='AuthExecuteMsg::TransferAdmin': return 'TransferAdmin '+coq(f['new_admin'])
        if v.n=='SudoMsg::SwapExactAmountIn': return 'SwapExactAmountIn '+' '.join(par(coq(f[x])) for x in('sender','token_in','token_out_denom','token_out_min_amount','swap_fee'))
        if v.n=='TickState': return f"mkTS ({coq(f['ask_values'])}) ({coq(f['bid_values'])})"
        if v.n=='node': return 'mkNode '+' '.join(par(coq(f[x])) for x in('key','tick','dir','left','right','parent','type'))
        if v.n=='send': return f"mkSend {coq(f['reply'])} {coq(f['to'])} {par(coq(f['coin']))}"
        if v.n=='MsgSend256': return coq(send(v,0))
        if v.n=='coin': return f"mkCoin {coq(f['denom'])} {coq(f['amount'])}"
        if v.n=='TickValues': return 'mkTV '+' '.join(coq(f[x]) for x in('total_amount_of_liquidity','cumulative_total_value','effective_total_amount_swapped','cumulative_realized_cancels','last_tick_sync_etas'))
        if v.n in STR: return 'mk'+v.n+' '+' '.join(par(coq(f[x])) for x in STR[v.n])
        raise NotImplementedError('emit '+v.n)
    raise NotImplementedError(repr(v))
def par(s): return s if re.match(r'^[\w.]+$|^".*"$|^\[.*\]$|^\(.*\)$',s,re.S) and not re.match(r'^\(.*\).*\(.*\)$',s,re.S) else '('+s+')'
def table(path,test,var,env=None,extra=None):
    src=open(R+path).read(); STR.update({k:v for k,v in structs(src).items()})
    body=test_body(src,test)
    base=dict(env or {})
    got=lets_env(body,base)
    return got[var]
def lets_env(toks,base):
    p=P(toks+[('eof','')]); env=dict(base)
    while p.at('let') or p.at('struct'):
        if p.at('struct'):
            p.nx(); p.nx(); p.block(); continue
        p.nx()
        if p.at('mut'): p.nx()
        n=p.nx()
        if p.at(':'):
            while not p.at('='): p.nx()
        p.eat('='); e=p.expr(); p.eat(';')
        env[n]=ev(e,env)
    return env
def emit(name,typ,cases):
    return f"Definition {name} : list {typ} :=\n  [ "+";\n    ".join(coq(c) for c in cases)+" ].\n"
def expand(path):
    s=open(path).read()
    def one(m):
        src,test,typ=m.group(1),m.group(2),m.group(3); var=m.group(4) or 'test_cases'
        c=table(src,test,var.strip())
        return f"(* BEGIN {src} {test} {typ}{m.group(4) or ''} *)\n{emit(test+'_cases',typ,c)}(* END *)"
    s=re.sub(r'\(\* BEGIN (\S+) (\S+) (\S+)( \S+)? \*\)\n(?:.*?)\(\* END \*\)',one,s,flags=re.S)
    open(path,'w').write(s)
if __name__=='__main__':
    import glob
    for f in (sys.argv[1:] or sorted(glob.glob('/verif/rocq/theories/Conf*.v'))): expand(f)
