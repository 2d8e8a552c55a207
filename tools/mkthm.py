#!/usr/bin/env python3
"""Write theories/T_<dist>.v: the property theorems of the distributions whose
laws come from a certificate (P_<dist>.CERT).  Run after editing the table."""
import os, re
OUT = os.path.join(os.path.dirname(__file__), '..', 'rocq', 'theories')
D = []

def dist(name, params, hyps, lo, hi, ex, args=None, extra='', skip=(), log='all', mode=True,
         bad=None, ends=None, reals=None, imports='', pre='', thms=(), cert=True, binders=None):
    D.append(dict(name=name, params=params, hyps=hyps, lo=lo, hi=hi, ex=ex, args=args or params,
                  extra=extra, skip=skip, log=log, mode=mode, bad=bad, ends=ends,
                  reals=reals, imports=imports, pre=pre, thms=thms, cert=cert, binders=binders))

exec(open(os.path.join(os.path.dirname(__file__), 'dists.py')).read())

def thm(out, cid, d, stmt, proof, exstmt=True):
    n = f"{cid}_{d['name']}"
    ps = d['params'].split()
    hyps = d['hyps']
    q = f"forall {' '.join(ps)} : R, " if ps else ''
    h = ''.join(f"{x} -> " for x in hyps)
    out.append(f"Theorem {n} : {q}{h}\n  {stmt}.")
    hn = [f"H{i}" for i in range(len(hyps))]
    binder = ' '.join(ps + hn)
    app = f"fun {binder} => {proof}" if binder else proof
    out.append(f"Proof. {proof[1:]}. Qed." if proof[0] == '@' else f"Proof. exact ({app}). Qed.")
    out.append(f"Print Assumptions {n}.")
    # concrete instance
    vals = d['ex']
    est = stmt
    for p_, v in zip(ps, vals):
        est = re.sub(rf"\b{p_}\b(?!\w)", f"({v})", est)
    sides = ' '.join("ltac:(side)" for _ in hyps)
    out.append(f"Example {n}_instance : {est}.")
    out.append(f"Proof. exact ({n} {' '.join('('+v+')' for v in vals)} {sides}). Qed.\n")

def validators(M):
    """The validators that the support function of M_<dist>.v goes through."""
    src = open(os.path.join(OUT, M + '.v')).read()
    m = re.search(r"^Definition support.*?(?=^\(\*\*|\Z)", src, re.M | re.S)
    found = []
    for v in re.findall(r"\bvalidate\w*", m.group(0)) if m else []:
        for f in [M] + re.findall(r"\bM_\w+", src.split('Local Open')[0]):
            fn = os.path.join(OUT, f + '.v')
            if f != 'M_common' and os.path.exists(fn) and re.search(rf"^Definition {v}\b", open(fn).read(), re.M):
                found.append(f + '.' + v); break
    return found

def lemma(d, name):
    """The binders and statement of a lemma of P_<dist>.v, and whether it is in the section."""
    src = open(os.path.join(OUT, f"P_{d['name']}.v")).read()
    m = re.search(rf"^Lemma {name}\b(.*?)\.\s*\n?Proof", src, re.M | re.S)
    assert m, (d['name'], name)
    t = m.group(1); depth = 0
    for i, c in enumerate(t):
        if c in '([{': depth += 1
        if c in ')]}': depth -= 1
        if c == ':' and depth == 0: break
    before = src[:m.start()]
    insec = len(re.findall(r"^Section P\.", before, re.M)) > len(re.findall(r"^End P\.", before, re.M))
    return t[:i].strip(), t[i+1:].strip(), insec

def lift(o, d, cid, name, comment='', inst='', suffix=''):
    """State a lemma of P_<dist>.v as the theorem of a property."""
    b, st, insec = lemma(d, name)
    n = f"{cid}_{d['name']}{suffix}"
    ps = d['params'].split()
    q = ''
    if insec:
        q = (f"forall {d['binders']}, " if d['binders'] else f"forall {' '.join(ps)} : R, " if ps else '') + ''.join(f"{x} -> " for x in d['hyps'])
    if b: q += f"forall {b},\n  "
    if comment: o.append(f"(** {cid}: {comment} *)")
    o.append(f"Theorem {n} : {q}{st}.")
    o.append(f"Proof. first [exact P_{d['name']}.{name} | intros; apply P_{d['name']}.{name}; assumption]. Qed.")
    o.append(f"Print Assumptions {n}.")
    a = ''
    if insec:
        a = ' '.join('(' + v + ')' for v in d['ex']) + ' ' + ' '.join("ltac:(inst)" for _ in d['hyps'])
    if inst.startswith('='): a, inst = '', inst[1:]   # all the arguments are given
    if inst.startswith('@'):                          # the whole example is given
        o.append(f"Example {n}_instance {inst[1:]}\n"); return
    inst = inst.replace('!', 'ltac:(inst)')
    o.append(f"Example {n}_instance := {n} {a} {inst}.\n")

for d in D:
    M = 'M_' + d['name']; P = 'P_' + d['name']
    a = d['args']
    ps = d['params'].split()
    hn = [f"H{i}" for i in range(len(d['hyps']))]
    pa = ' '.join(ps + hn)
    f = lambda g: f"(fun x => {M}.{g} x {a})"
    C = f"({P}.CERT {pa})" if pa else f"{P}.CERT"
    o = []
    o.append(f"(** Properties of mpsci.distributions.{d['name']} (generated by tools/mkthm.py). *)")
    o.append("From Coq Require Import Reals Lra List.")
    o.append("From Coquelicot Require Import Coquelicot.")
    o.append(f"From Verif Require Import Values Spec SpecStat SpecEst VTac TTac DistLib.{d['imports']}\nFrom Verif Require Import {M}.\nFrom Verif Require {P}.")
    o.append("Import ListNotations.\nLocal Open Scope R_scope.\n")
    if d['pre']: o.append(d['pre'])
    lo, hi = d['lo'], d['hi']
    V = lambda e: {'p_infty': 'PInf', 'm_infty': 'NInf'}.get(e, f"(Fin ({e}))")
    E = lambda e: e if e in ('p_infty', 'm_infty') else f"Finite ({e})"
    L = {}
    L['C30'] = (f"complementary {f('cdf')} {f('sf')}", f"cert_complementary {C}")
    val = ''.join(', ' + v for v in validators(M))
    L['C31'] = (f"nondecreasing {f('cdf')} /\\ supported_on {f('cdf')} {V(lo)} {V(hi)} /\\\n  {M}.support {a} = Ok ({V(lo)}, {V(hi)})",
                f"@intros {pa}. split; [exact (cert_nondecreasing {C})|split; [exact (cert_supported {C})|unfold {M}.support{val}; supp]]")
    L['C32'] = (f"density_of {f('cdf')} {f('pdf')} {lo} {hi}", f"cert_density {C}")
    L['C33'] = (f"total_mass_one {f('pdf')} {lo} {hi}", f"cert_total_mass {C}")
    if d['log'] == 'all':
        L['C34'] = (f"forall x : R, log_of {f('pdf')} {f('logpdf')} (Fin x)", f"{P}.log_all {pa}")
    elif d['log'] == 'cert':   # no finite end point
        L['C34'] = (f"forall x : R, log_of {f('pdf')} {f('logpdf')} (Fin x)",
                    f"cert_log_ends {C} (fun x E => ltac:(discriminate E)) (fun x E => ltac:(discriminate E))")
    elif d['log'] == 'inner':
        L['C34'] = (f"forall x : R, {E(lo)} <> Finite x -> {E(hi)} <> Finite x -> log_of {f('pdf')} {f('logpdf')} (Fin x)",
                    f"cert_log {C}")
    L['C35'] = (f"inverse_of {f('cdf')} {f('invcdf')} {lo} {hi}", f"cert_inverse {C}")
    L['C36'] = (f"inverse_of {f('sf')} {f('invsf')} {lo} {hi} /\\\n  (forall p, 0 < p < 1 -> {M}.invsf (Fin p) {a} = {M}.invcdf (Fin (1 - p)) {a})",
                f"conj (cert_inverse_sf {C}) (cert_invsf_invcdf {C})")
    if d['ends']:
        e = d['ends']
        L['C37'] = (f"rejects_bad_p {f('invcdf')} /\\ rejects_bad_p {f('invsf')} /\\\n  at_ends {f('invcdf')} {e[0]} {e[1]} /\\ at_ends {f('invsf')} {e[1]} {e[0]}",
                    f"{P}.ends {pa}")
    if d['mode']:
        L['C39'] = (f"is_mode {f('pdf')} ({M}.mode {a})", f"{P}.mode_ok {pa}")
    if not d['cert']: L = {}
    for k, (st, pr) in L.items():
        if k in d['skip']: continue
        thm(o, k, d, st, pr)
    if d['bad']: o.append(d['bad'].replace('@M', M).replace('@P', P))
    if d['extra']: o.append(d['extra'].replace('@M', M).replace('@P', P))
    for t in d['thms']: lift(o, d, *t)
    path, text = os.path.join(OUT, f"T_{d['name']}.v"), '\n'.join(o) + '\n'
    if not os.path.exists(path) or open(path).read() != text:
        open(path, 'w').write(text)
