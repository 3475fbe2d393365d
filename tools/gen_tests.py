#!/usr/bin/env python3
"""Translate the assertions of the repository's own unit tests into Coq examples
about the model (rocq/theories/UnitTests.v).  The test files are parsed as text
(ast), nothing is run.  Tests that need data files or numpy broadcasting are
written out in TAIL."""
import ast,sys
R='/repo/transcoder/'
out=[]
class Skip(Exception): pass
def lit(n):
    if isinstance(n,ast.Constant) and isinstance(n.value,bool): return 'true' if n.value else 'false'
    if isinstance(n,ast.Constant) and isinstance(n.value,int): return str(n.value)
    if isinstance(n,ast.Call) and ast.unparse(n.func) in('np.uint64','np.uint8'): return lit(n.args[0])
    if isinstance(n,ast.BinOp): return str(eval(ast.unparse(n)))
    raise Skip(ast.unparse(n))
class T:
    def __init__(s,cls): s.main=[];s.aux=[];s.vars={};s.bm={};s.cls=cls
    def memory(s,l): return 'memory ['+'; '.join(f'({p}, {o}, {v})' for p,o,v in l)+']'
    def bitmap(s,call):
        f=ast.unparse(call.func)
        if f=='screen.DHGRBitmap': return f'(Ok (dhgr_new ({s.memory(s.main)}) ({s.memory(s.aux)})))'
        if f=='screen.HGRBitmap': return f'(Ok (hgr_new ({s.memory(s.main)})))'
    def expr(s,n):
        """Coq term of type res Z, res (list colour_name), ..."""
        if isinstance(n,ast.Name): return s.vars[n.id]
        if isinstance(n,ast.Subscript):
            u=ast.unparse(n.value)
            if u.endswith('.packed'):
                p,o=n.slice.elts; return f'(packed_at {s.bm[u[:-7]]} {lit(p)} {lit(o) if not isinstance(o,ast.BinOp) else str(eval(ast.unparse(o)))})'
        if isinstance(n,ast.Call):
            f=ast.unparse(n.func); a=n.args; kw={k.arg:k.value for k in n.keywords}
            if f=='int': return s.expr(a[0])
            if f=='np.count_nonzero' and ast.unparse(a[0]).endswith('.packed'): return f'(count_packed {s.bm[ast.unparse(a[0])[:-7]]})'
            k='DHGR' if 'DHGR' in f else 'HGR'
            m=f.split('.')[-1]
            if m=='_make_header': return f'(Ok (make_header {k} {lit(a[0])}))'
            if m=='_make_footer': return f'(Ok (make_footer {k} {lit(a[0])}))'
            if m=='byte_offset': return f'(byte_offset {k} {lit(a[0])} {lit(kw["is_aux"])})'
            if m=='_byte_offsets': return f'(byte_offsets {k} {lit(kw["is_aux"])})'
            if m=='masked_update':
                x=ast.unparse(a[1]); x={'int34_max':str(2**34-1)}.get(x) or lit(a[1])
                return f'(Ok (masked_update {k} {lit(a[0])} {x} {lit(a[2])}))'
            if m=='_double_pixels': return f'(Ok (double_pixels {lit(a[0])}))'
            if m=='to_dots':
                o=lit(a[1]) if len(a)>1 else lit(kw['byte_offset'])
                if isinstance(a[0],ast.Name): return f'(let! x := {s.vars[a[0].id]} in to_dots {k} x {o})'
                return f'(to_dots {k} {lit(a[0])} {o})'
            if m=='mask_and_shift_data': return f'(let! x := {s.expr(a[0])} in mask_and_shift_data {k} x {lit(kw["byte_offset"])})'
            if m=='dots_to_nominal_colour_pixels':
                ph=kw['init_phase']; ph=lit(ph) if isinstance(ph,ast.Constant) else f'(nth {lit(ph.slice)} (PHASES HGR) 0)'
                d=a[1]; d=f'(Ok {lit(d)})' if isinstance(d,ast.Constant) else s.vars[d.id]
                return f'(let! x := {d} in dots_to_nominal_colour_pixels {lit(a[0])} x hgr_value {ph})'
            if m in('rol','ror'): return f'(Ok ({m} {lit(a[0])} {lit(a[1])}))'
        if isinstance(n,ast.Tuple):
            e=[ast.unparse(x) for x in n.elts]
            if 'HGRColours' in e[0]: return '(Ok ['+'; '.join(x.split('.')[-1] for x in e)+'])'
            return '(Ok ('+', '.join(lit(x) for x in n.elts)+'))'
        return f'(Ok {lit(n)})'
    def run(s,body,name):
        i=0
        for st in body:
            try:
                if isinstance(st,ast.Assign):
                    t=st.targets[0]; u=ast.unparse(t)
                    if isinstance(t,ast.Subscript) and u.startswith(('self.main.page_offset','self.aux.page_offset')):
                        p,o=t.slice.elts; (s.main if 'main' in u else s.aux).append((lit(p),lit(o),lit(st.value)))
                    elif isinstance(st.value,ast.Call) and s.bitmap(st.value): s.bm[u]=s.bitmap(st.value)
                    elif u=='int34_max' or u=='int13_max': pass
                    else: s.vars[u]=s.expr(st.value)
                elif isinstance(st,ast.Expr) and isinstance(st.value,ast.Call):
                    f=ast.unparse(st.value.func)
                    if f=='self.assertEqual':
                        a,b=st.value.args[:2]; i+=1
                        out.append(f'Example {name}_{i} : {s.expr(b)} = {s.expr(a)}.\nProof. vm_compute. reflexivity. Qed.')
                    elif f.endswith('.apply'):
                        c=st.value; kw={k.arg:k.value for k in c.keywords}; a=[lit(x) for x in c.args] or [lit(kw[x]) for x in('page','offset','is_aux','value')]
                        b=f[:-6]; s.bm[b]=f'(let! b := {s.bm[b]} in apply b {" ".join(a)})'
                    elif f=='self.assertTrue': raise Skip(f)
            except Skip as e: print('skipped in',name,':',ast.unparse(st)[:100],file=sys.stderr)
            except Exception as e: print('SKIPPED in',name,':',ast.unparse(st)[:100],repr(e),file=sys.stderr)
for fn in('colours_test.py','screen_test.py'):
    t=ast.parse(open(R+fn).read())
    out.append(f'(** ** transcoder/{fn} *)')
    for c in t.body:
        if isinstance(c,ast.ClassDef):
            for m in c.body:
                if isinstance(m,ast.FunctionDef) and m.name.startswith('test'):
                    if m.name in('test_mask_and_shift_data','test_fix_array_neighbours'): continue
                    out.append(f'(** {fn} {m.lineno}-{m.end_lineno}: {c.name}.{m.name} *)')
                    T(c.name).run(m.body,c.name+'_'+m.name)
HEAD=r'''(** The repository's unit tests (transcoder/*_test.py), as examples about the
    model: a check that the model computes what the code's authors expect of the
    code.  Generated by tools/gen_tests.py from the text of the tests; the last
    part is written by hand. *)
From Verif Require Import Base ScreenModel ScreenSpec BitmapModel ColourModel TableModel OpcodeModel SymbolModel GrabberModel.

(** [screen.MemoryMap(screen_page=1)] with some bytes set *)
Definition memory (l : list (Z * Z * Z)) : memory_map :=
  {| mm_page := 1; mm_data := fold_left (fun m x => upd2 m (fst (fst x)) (snd (fst x)) (snd x)) l (fun _ _ => 0) |}.
Definition packed_at (b : res bitmap) (p o : Z) : res Z := let! b' := b in Ok (bm_packed b' p o).
(** [np.count_nonzero(dhgr.packed)] *)
Definition count_packed (b : res bitmap) : res Z :=
  let! b' := b in Ok (Z.of_nat (length (filter (fun po => negb (bm_packed b' (fst po) (snd po) =? 0)) (list_prod (zrange 32) (zrange 128))))).

'''
TAIL=open('/verif/tools/tests_tail.txt').read()
open('/verif/rocq/theories/UnitTests.v','w').write(HEAD+'\n'.join(out)+'\n'+TAIL)
