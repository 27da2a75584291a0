#!/usr/bin/env python3
"""Translate the project's own unit tests into Coq.

Reads /repo/test (as text) and writes one Suite*.v file for each test file.  It
interprets the little C++ the tests use: SUBCASE trees as doctest runs them, vector
and scalar definitions, the mesh helpers of test_helpers.h, and the assert helpers
of assert_helper.h.  Literals are evaluated here in the test's type (float or
double); what is checked is evaluated in Coq by the model."""
import re, sys, math, struct, ast

REPO = '/repo/test/'

def f32(x):
    try: return struct.unpack('f', struct.pack('f', x))[0]
    except OverflowError: return math.copysign(math.inf, x)

class Num:
    """t: 'i' int, 'u' unsigned, 'f' float, 'd' double."""
    def __init__(s, t, v):
        s.t = t; s.v = f32(v) if t == 'f' else (float(v) if t == 'd' else v)
RANK = {'i': 0, 'u': 1, 'f': 2, 'd': 3}
def binop(op, a, b):
    t = a.t if RANK[a.t] >= RANK[b.t] else b.t
    if op == '+': v = a.v + b.v
    elif op == '-': v = a.v - b.v
    elif op == '*': v = a.v * b.v
    elif op == '/':
        if t in 'iu':
            q = abs(a.v) // abs(b.v); v = q if (a.v < 0) == (b.v < 0) else -q
        else: v = a.v / b.v
    return Num(t, v)

class Interp:
    def __init__(s, T, src, helpers):
        s.T = T; s.out = []; s.seen = set(); s.helpers = helpers; s.skipped = []
    def conv(s, x): return Num(s.T, x.v)
    # ---- expressions
    def ev(s, e, env):
        e = e.strip()
        p = Parser(e, s, env)
        r = p.expr()
        p.ws()
        if p.i != len(p.s): raise SyntaxError('rest %r of %r' % (p.s[p.i:], e))
        return r

class Parser:
    def __init__(s, text, it, env): s.s = text; s.i = 0; s.it = it; s.env = env
    def ws(s):
        while s.i < len(s.s) and s.s[s.i].isspace(): s.i += 1
    def peek(s, t):
        s.ws(); return s.s.startswith(t, s.i)
    def eat(s, t):
        if not s.peek(t): raise SyntaxError('expected %s at %r' % (t, s.s[s.i:]))
        s.i += len(t)
    def expr(s):
        a = s.term()
        while True:
            s.ws()
            if s.peek('+') or (s.peek('-') and not s.peek('->')):
                op = s.s[s.i]; s.i += 1; b = s.term(); a = binop(op, a, b)
            else: return a
    def term(s):
        a = s.unary()
        while True:
            s.ws()
            if s.peek('*') or s.peek('/'):
                op = s.s[s.i]; s.i += 1; b = s.unary(); a = binop(op, a, b)
            else: return a
    def unary(s):
        s.ws()
        if s.peek('-'):
            s.i += 1; a = s.unary(); return Num(a.t, -a.v)
        if s.peek('*'):
            s.i += 1; return s.unary()
        return s.post()
    def post(s):
        a = s.atom()
        while s.peek('['):
            s.eat('['); k = s.expr(); s.eat(']'); a = a[k.v]
        return a
    def args(s, close):
        r = []
        if s.peek(close): s.eat(close); return r
        while True:
            if s.peek('{'): s.eat('{'); r.append(s.args('}'))
            else: r.append(s.expr())
            if s.peek(','): s.eat(','); continue
            s.eat(close); return r
    def atom(s):
        s.ws(); T = s.it.T
        m = re.compile(r'(\d+\.\d*|\.\d+|\d+)([eE][-+]?\d+)?([fF]?)(UL|u|U)?').match(s.s, s.i)
        if m:
            s.i = m.end(); txt = m.group(1) + (m.group(2) or '')
            if m.group(3): return Num('f', float(txt))
            if '.' in txt or m.group(2): return Num('d', float(txt))
            return Num('i', int(txt))
        if s.peek('('):
            s.eat('('); a = s.expr(); s.eat(')'); return a
        def word(w):
            if s.peek(w): s.eat(w); return True
            return False
        if word('static_cast<unsigned int>('):
            a = s.expr(); s.eat(')'); return Num('u', a.v if a.v >= 0 else None)
        if word('static_cast<T>('):
            a = s.expr(); s.eat(')'); return s.it.conv(a)
        if word('std::sqrt('):
            a = s.expr(); s.eat(')'); return Num('f' if a.t == 'f' else 'd', math.sqrt(a.v))
        if word('std::numeric_limits<T>::max()'):
            return Num(T, sys.float_info.max if T == 'd' else (2 - 2**-23) * 2.0**127)
        if word('std::numeric_limits<T>::min()'):
            return Num(T, 2.0**-1022 if T == 'd' else 2.0**-126)
        if word('std::numeric_limits<T>::epsilon()'):
            return Num(T, sys.float_info.epsilon if T == 'd' else 2.0**-23)
        if word('std::numeric_limits<T>().max()') or word('std::numeric_limits<float>::max()'): return Num('f', (2 - 2**-23) * 2.0**127)
        if word('std::numeric_limits<float>::min()'): return Num('f', 2.0**-126)
        if word('sqrt('):
            a = s.expr(); s.eat(')'); return Num('f' if a.t == 'f' else 'd', math.sqrt(a.v))
        if word('pi<T>'): return Num(T, math.pi)
        if word('blaze::IdentityMatrix<T>(3UL)'):
            return [[Num(T, float(i == j)) for j in range(3)] for i in range(3)]
        if word('arbitraryRotationMatrix('):
            axis, ang = s.args(')')
            n1, n2, n3 = axis
            c, sn, one = Num(T, math.cos(ang.v)), Num(T, math.sin(ang.v)), Num('i', 1)
            M = lambda *a: a[0] if len(a) == 1 else binop('*', M(*a[:-1]), a[-1])
            A = lambda a, b: binop('+', a, b)
            S = lambda a, b: binop('-', a, b)
            oc = S(one, c)
            return [[A(M(n1,n1,oc),c), S(M(n1,n2,oc),M(n3,sn)), A(M(n1,n3,oc),M(n2,sn))],
                    [A(M(n1,n2,oc),M(n3,sn)), A(M(n2,n2,oc),c), S(M(n2,n3,oc),M(n1,sn))],
                    [S(M(n1,n3,oc),M(n2,sn)), A(M(n2,n3,oc),M(n1,sn)), A(M(n3,n3,oc),c)]]
        if word('Vec3r<T>{'): return [s.it.conv(x) for x in s.args('}')]
        if word('Vec3ui{'): return s.args('}')
        if word('T('):
            a = s.expr(); s.eat(')'); return s.it.conv(a)
        m = re.compile(r'[A-Za-z_]\w*').match(s.s, s.i)
        if not m: raise SyntaxError(s.s[s.i:])
        s.i = m.end(); w = m.group(0)
        if w == 'true': return True
        if w == 'false': return False
        if w not in s.env: raise NameError(w)
        return s.env[w]

# ---- source text to trees
def strip(text):
    def rep(m):
        t = m.group(0)
        return t if t[0] == '"' else re.sub(r'[^\n]', ' ', t)
    return re.sub(r'"(?:\\.|[^"\\])*"|//[^\n]*|/\*.*?\*/', rep, text, flags=re.S)

def parse(text, i, line):
    """Items until the matching brace: ('s', line, stmt) | ('b', line, head, items)."""
    items = []; start = i; depth = 0
    while i < len(text):
        c = text[i]
        if c == '"':
            i = text.index('"', i + 1) + 1; continue
        if c in '([': depth += 1
        if c in ')]': depth -= 1
        if c == '{':
            head = text[start:i].strip()
            if re.match(r'(SUBCASE|for|TEST_CASE_TEMPLATE)\b', head) and depth == 0:
                ln = text.count('\n', 0, start + len(text[start:i]) - len(text[start:i].lstrip())) + 1
                sub, i = parse(text, i + 1, line)
                items.append(('b', ln, head, sub)); start = i; continue
            depth += 1
        if c == '}':
            if depth == 0: return items, i + 1
            depth -= 1
        if c == ';' and depth == 0:
            st = text[start:i]
            ln = text.count('\n', 0, start + len(st) - len(st.lstrip())) + 1
            items.append(('s', ln, ' '.join(st.split()))); start = i + 1
        i += 1
    return items, i

def runs(items):
    """The executions doctest makes of a block: lists of statements."""
    subs = [k for k, x in enumerate(items) if x[0] == 'b' and x[2].startswith('SUBCASE')]
    if not subs: return [list(items)]
    res = []
    for k in subs:
        for r in runs(items[k][3]):
            res.append([x for x in items[:k] if not (x[0] == 'b' and x[2].startswith('SUBCASE'))] + r +
                       [x for x in items[k+1:] if not (x[0] == 'b' and x[2].startswith('SUBCASE'))])
    return res

# ---- emission
def lit(x):
    v = x.v
    if v == 0: return 'nz' if math.copysign(1, v) < 0 else 'z'
    if isinstance(v, int): v = float(v)
    n, d = v.as_integer_ratio(); e = -(d.bit_length() - 1)
    while n % 2 == 0: n //= 2; e += 1
    return '(l %s %s)' % (('(%d)' % n) if n < 0 else n, ('(%d)' % e) if e < 0 else e)
def vec(v): return '(V %s)' % ' '.join(lit(x) for x in v)
def mat(m): return '(M %s)' % ' '.join(vec(r) for r in m)
def lst(f, l): return '[%s]' % '; '.join(f(x) for x in l)
def nid(n): return 'None' if n.v is None else '(Some %d%%nat)' % n.v

GEOM = {  # class -> constructor, kinds of its arguments, collection, intersector, distance
  'SphereCollection': ('make_spheres', [vec, lit], 'sphere_coll', 'sphere_isector s', 'sphere_distance'),
  'PlaneCollection': ('make_planes', [vec, lit, lit, mat], 'plane_coll', 'plane_isector', 'plane_distance'),
  'CylinderCollection': ('make_cylinders', [vec, lit, lit, lit, mat], 'cylinder_coll', 'cylinder_isector', 'cylinder_distance'),
  'TriangleMesh': ('make_mesh', [vec, lambda f: '(V %s)' % ' '.join('%d' % x.v for x in f)], 'mesh_coll', 'tri_isector s', None),
}

class Suite:
    def __init__(s, T): s.T = T; s.it = Interp(T, None, None); s.tests = []; s.seen = set(); s.skipped = 0; s.warn = []
    def emit(s, line, text, warn=False):
        if (line, text) in s.seen: return
        s.seen.add((line, text)); (s.warn if warn else s.tests).append((line, text))
    def stmt(s, ln, st, env, helpers):
        it = s.it
        st = re.sub(r'^(const|constexpr) ', '', st)
        if s.embree(ln, st, env): return
        m = re.match(r'auto (\w+) = std::make_unique<(Vec3rList<T>|std::vector<T>|Mat3rList<T>|Vec3iList)>\(\)$', st)
        if m: env[m.group(1)] = []; return
        m = re.match(r'Vec3r<T> (\w+)\{(.*)\}$', st) or re.match(r'Vec3r<T> (\w+) = \{(.*)\}$', st)
        if m: env[m.group(1)] = it.ev('Vec3r<T>{' + m.group(2) + '}', env); return
        m = re.match(r'Mat3r<T> (\w+)(\{.*\})$', st)
        if m:
            p = Parser(m.group(2), it, env); p.eat('{'); rows = p.args('}')
            env[m.group(1)] = [[it.conv(x) for x in r] for r in rows]; return
        m = re.match(r'Mat3r<T> (\w+) = (.*)$', st)
        if m: env[m.group(1)] = it.ev(m.group(2), env); return
        m = re.match(r'(T|float|double|bool|unsigned int|auto) (\w+)(?: = |\{)(.*?)\}?$', st)
        if m and not ('intersect_node' in st or 'scene.' in st or 'intersect1' in st):
            v = it.ev(m.group(3), env)
            if m.group(1) == 'T': v = it.conv(v)
            if m.group(1) == 'float': v = Num('f', v.v)
            if m.group(1) == 'unsigned int': v = Num('u', v.v)
            env[m.group(2)] = v; return
        m = re.match(r'(\w+)(?:->|\.)(?:emplace_back|push_back)\((.*)\)$', st)
        if m:
            v = it.ev(m.group(2), env)
            env[m.group(1)].append(it.conv(v) if isinstance(v, Num) else v); return
        m = re.match(r'(SphereCollection|PlaneCollection|CylinderCollection|TriangleMesh)(?:<T>)? (\w+)[({](.*)[)}]$', st)
        if m:
            ctor, kinds, *_ = GEOM[m.group(1)]
            args = [env[a.strip().lstrip('*')] for a in m.group(3).split(',')]
            env[m.group(2)] = (m.group(1), '%s %s' % (ctor, ' '.join(lst(k, a) for k, a in zip(kinds, args))))
            return
        m = re.match(r'Ray<T> (\w+)\{(.*)\}$', st)
        if m:
            a = Parser('{' + m.group(2) + '}', it, env); a.eat('{'); a = a.args('}')
            env[m.group(1)] = 'ray_of %s %s' % (vec(a[0]), vec(a[1])) if len(a) == 2 else \
                'make_ray %s %s %s %s false' % (vec(a[0]), vec(a[1]), lit(a[2]), lit(a[3]))
            return
        if re.match(r'RayHit<T> \w+$', st) or re.match(r'\[\[maybe_unused\]\]', st): return
        m = re.match(r'(assert_\w+)\((.*)\)$', st)
        if m:
            name = m.group(1); p = Parser(m.group(2) + ')', it, env); a = p.args(')')
            cls, ctor = a[0]; _, _, coll, isx, dist = GEOM[cls]
            if dist == 'cylinder_distance': dist = 'cyl' + ('64' if s.T == 'd' else '32')
            def on(body): return (coll, ctor, body)
            C = '(%s s)' % coll; I = '(%s)' % isx
            b = lambda x: 'true' if x else 'false'
            if name == 'assert_bounding_box':
                s.emit(ln, on('box_ok %s %d %s %s' % (C, a[1].v, vec(a[2]), vec(a[3]))))
            elif name == 'assert_bounding_box_collection':
                s.emit(ln, on('boxes_ok %s %s %s' % (C, vec(a[1]), vec(a[2]))))
            elif name == 'assert_primitive_center':
                s.emit(ln, on('center_ok %s %d %s' % (C, a[1].v, vec(a[2]))))
            elif name == 'assert_distance_to_surface':
                s.emit(ln, on('dist_ok %s %s %d %s %s' % (C, dist, a[1].v, vec(a[2]), lit(it.conv(a[3])))))
            elif name == 'assert_intersect_primitive_hit':
                s.emit(ln, on('prim_ok %s %s (%s) %s %s %s %s' % (C, I, a[1], b(a[2]), nid(a[3]), lit(it.conv(a[4])), vec(a[5]))))
            elif name == 'assert_traverse_bvh_hit':
                s.emit(ln, on('bvh_ok b %s (%s) %s %s %s %s' % (I, a[1], b(a[2]), nid(a[3]), lit(it.conv(a[4])), vec(a[5]))))
            elif name == 'assert_traverse_bvh_hit_collection':
                s.emit(ln, on('bvh_any_ok b %s (%s) %s %s %s' % (I, a[1], b(a[2]), lit(it.conv(a[3])), vec(a[4]))))
            elif name == 'assert_traverse_bvh_hit_trimesh_distance':
                s.emit(ln, on('bvh_dist_ok b %s (%s) %s %s' % (I, a[1], b(a[2]), lit(it.conv(a[3])))))
            elif name == 'assert_traverse_bvh_hit_trimesh_precision':
                s.emit(ln, on('bvh_flag_ok b %s (%s) %s' % (I, a[1], b(a[2]))), warn=True)
            else: raise SyntaxError(name)
            return
        # intersect_node tests
        if st.startswith('BVHNode<T, PlaneCollection> '): env['node'] = {}; return
        m = re.match(r'node\.(min|max) = (\w+)$', st)
        if m: env['node'][m.group(1)] = env[m.group(2)]; return
        if st == 'bool hit = intersect_node(tmin, tmax, node, ray)':
            env['call'] = 'node_answer %s %s (%s) %s %s' % (vec(env['node']['min']), vec(env['node']['max']), env['ray'],
                                                          lit(env['tmin']), lit(env['tmax'])); return
        m = re.match(r'(CHECK|WARN|CHECK_FALSE|WARN_FALSE)\((hit|!hit|hit == (\w+))\)$', st)
        if m:
            want = m.group(2) == 'hit' if not m.group(3) else env[m.group(3)]
            if 'FALSE' in m.group(1): want = not want
            s.emit(ln, 'node_hit_ok (%s) %s' % (env['call'], 'true' if want else 'false'), warn='WARN' in m.group(1)); return
        m = re.match(r'(CHECK|WARN)\((tmin|tmax) == Approx\((\w+)\)\)$', st)
        if m:
            s.emit(ln, 'node_%s_ok (%s) %s' % (m.group(2), env['call'], lit(env[m.group(3)])), warn='WARN' in m.group(1)); return
        # mesh helpers
        m = re.match(r'(\w+)\((.*)\)$', st)
        if m and m.group(1) in helpers:
            center, vs, ix = [x.strip().lstrip('*') for x in m.group(2).split(',')]
            loc = {'center': env[center], 'vertices': env[vs], 'indices': env[ix]}
            for x in helpers[m.group(1)]: s.stmt(x[1], x[2], loc, helpers)
            return
        raise SyntaxError('%d: %s' % (ln, st))
    def embree(s, ln, st, env):
        """The statements of test_embree_primitives; Embree calls every object once."""
        it = s.it
        if re.match(r'auto \w+ = rtcNew(Device|Scene)\(', st): env.setdefault('objects', []); return True
        m = re.match(r'Embree(Sphere|Plane|Cylinder) (\w+)\(\w+, \w+, (.*)\)$', st)
        if m:
            a = Parser(m.group(3) + ')', it, env).args(')')
            k = len(env['objects'])
            txt = ' '.join(mat(x) if isinstance(x, list) and isinstance(x[0], list) else vec(x) if isinstance(x, list)
                           else lit(it.conv(x)) for x in a)
            con, pre = {'Sphere': ('ESphere', 'esphere'), 'Plane': ('EPlane', 'eplane'), 'Cylinder': ('ECyl', 'ecyl')}[m.group(1)]
            env['objects'].append((pre, '(%s %s (Some %d%%nat))' % (con, txt, k))); env[m.group(2)] = env['objects'][-1]
            return True
        if re.match(r'rtcCommitScene|RTCIntersectContext|rtcInitIntersectContext|RTCHit |RTCBounds |hit\d*\.(geom|inst)ID|'
                    r'rtcGetSceneBounds|rtcRelease', st): return True
        m = re.match(r'RTCRay (\w+)\{(.*)\}$', st)
        if m:
            a = Parser(m.group(2) + '}', it, env).args('}')
            env[m.group(1)] = 'estart %s %s %s %s' % (vec(a[0:3]), lit(a[3]), vec(a[4:7]), lit(a[8])); return True
        m = re.match(r'RTCRayHit (\w+)\{(\w+), \w+\}$', st)
        if m: env[m.group(1)] = env[m.group(2)]; return True
        m = re.match(r'rtcIntersect1\(\w+, &context, &(\w+)\)$', st)
        if m:
            env[m.group(1)] = 'shoot [%s] (%s)' % ('; '.join('%s_intersect %s 0 true None' % o for o in env['objects']), env[m.group(1)])
            return True
        m = re.match(r'CHECK\((\w+)\.ray\.tfar == Approx\((.*)\)\)$', st)
        if m: s.emit(ln, 'tfar_ok (%s) %s' % (env[m.group(1)], lit(it.ev(m.group(2), env)).replace('(l ', '(l64 '))); return True
        m = re.match(r'CHECK\((\w+)\.hit\.Ng_(\w) == Approx\((.*)\)\)$', st)
        if m: s.emit(ln, 'ng_ok v%s (%s) %s' % (m.group(2), env[m.group(1)], lit(it.ev(m.group(3), env)).replace('(l ', '(l64 '))); return True
        m = re.match(r'CHECK\((\w+)\.hit\.primID == (\d+)\)$', st)
        if m: s.emit(ln, 'eprim_ok (%s) %s' % (env[m.group(1)], m.group(2))); return True
        m = re.match(r'CHECK\(bounds?\.(lower|upper)_(\w) == Approx\((.*)\)\)$', st)
        if m:
            assert len(env['objects']) == 1
            s.emit(ln, 'bound_ok %s v%s (%s_bounds %s 0) %s' % ({'lower': 'fst', 'upper': 'snd'}[m.group(1)], m.group(2), *env['objects'][0],
                   lit(it.ev(m.group(3), env)).replace('(l ', '(l64 '))); return True
        m = re.match(r'CHECK\((\w+)\.distance_to_surface\((.*)\) == Approx\((.*)\)\)$', st)
        if m:
            s.emit(ln, 'approx (%s_distance %s %s) %s' % (*env[m.group(1)], vec(it.ev(m.group(2), env)),
                   lit(it.ev(m.group(3), env)).replace('(l ', '(l64 '))); return True
        return False
    def block(s, items, env, helpers):
        for x in items:
            if x[0] == 's': s.stmt(x[1], x[2], env, helpers)
            else:
                m = re.match(r'for \(int (\w+) = (\d+); \w+ <= (\d+); \+\+\w+\)$', x[2])
                if not m: raise SyntaxError(x[2])
                for k in range(int(m.group(2)), int(m.group(3)) + 1):
                    e = dict(env); e[m.group(1)] = Num('i', k); s.block(x[3], e, helpers)

def helpers():
    text = strip(open(REPO + 'test_helpers.h').read()); h = {}
    for m in re.finditer(r'inline void (\w+)\(const Vec3r<T> &center, Vec3rList<T> &vertices, Vec3iList &indices\) \{', text):
        items, _ = parse(text, m.end(), 0); h[m.group(1)] = items
    return h

def copy_env(e): return e

def load(path, T):
    text = strip(open(REPO + path).read()); H = helpers(); S = Suite(T)
    text = re.sub(r'^#.*$', '', text, flags=re.M); 
    for m in re.finditer(r'TEST_CASE_TEMPLATE\("[^"]*", T, float(?:, double)?\) \{', text):
        items, _ = parse(text, m.end(), 0)
        for r in runs(items): S.block(r, {}, H)
    return S

def group(ts):
    """Checks of the same collection share it and its tree."""
    plain = [(ln, t) for ln, t in ts if isinstance(t, str)]
    by = {}
    for ln, t in ts:
        if not isinstance(t, str): by.setdefault(t[:2], []).append((ln, t[2]))
    out = []
    if plain: out.append('  [' + ';\n   '.join('(%d%%nat, %s)' % x for x in plain) + ']')
    for (coll, ctor), l in by.items():
        out.append('  on_all (%s) (fun s =>%s [\n    ' % (ctor, ' let b := tree (%s s) in' % coll if any(' b ' in t for _, t in l) else '')
                   + ';\n    '.join('(%d%%nat, %s)' % x for x in l) + '])')
    return ';\n'.join(out)

FILES = [('Sphere', 'test_primitives/test_sphere.cpp'), ('Plane', 'test_primitives/test_plane.cpp'),
         ('Cylinder', 'test_primitives/test_cylinder.cpp'), ('Trimesh', 'test_primitives/test_trimesh.cpp'),
         ('Node', 'test_bvh/test_intersect.cpp'),
         ('ESphere', 'test_embree_primitives/test_EmbreeSphere.cpp'),
         ('EPlane', 'test_embree_primitives/test_EmbreePlane.cpp'),
         ('ECylinder', 'test_embree_primitives/test_EmbreeCylinder.cpp')]
if __name__ == '__main__':
    out = sys.argv[1]
    for name, path in FILES:
        body = []
        for T, n in (('d', '64'), ('f', '32')) if not name.startswith('E') else (('f', '32'),):
            S = load(path, T)
            print(name, n, len(S.tests), 'checks', len(S.warn), 'warnings')
            far = lambda x: name == 'Cylinder' and not isinstance(x[1], str) and x[1][2].startswith('dist_ok')
            for kind, ts in (('checks', [x for x in S.tests if not far(x)]), ('distances', [x for x in S.tests if far(x)]),
                             ('warnings', S.warn)):
                if ts: body.append((kind + n, n, ts))
        with open('%s/Suite%s.v' % (out, name), 'w') as f:
            f.write('(** The tests of /repo/test/%s, evaluated by the model.\n    Written by tools/suite.py; each entry is the line of the test and its answer. *)\n\n' % path)
            f.write('From Coq Require Import ZArith List Bool.\nFrom Coq.Floats Require Import SpecFloat.\n')
            f.write('From Verif Require Import Num NumF Vec Ray Bvh Traverse Sphere Plane Cylinder CylDist Trimesh%s Suite.\n' % (' Embree' if name.startswith('E') else ''))
            f.write('Import ListNotations.\n')
            for kind, n, ts in body:
                f.write('\nSection S%s_%s.\nLocal Existing Instance F%s.\nLocal Notation l := (l%s) (only parsing).\n' % (n, kind, n, n))
                f.write('Definition %s_%s : list (nat * bool) := concat [\n' % (name.lower(), kind))
                f.write(group(ts))
                f.write('].\nEnd S%s_%s.\n' % (n, kind))
