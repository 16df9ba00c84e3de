#!/usr/bin/env python3
"""Compare the model, run with floats (tools/floatrun.py), with the values asserted in the repository's tests
test_grav_nodata.py, test_grav_data.py, test_nav.py and test_utils.py.

    tools/numcheck.py [COMPILED_THEORIES_DIR] [DGStest_laptop.dat]

The tests assert one-sided bounds (a - b < eps); here |a - b| <= tol is checked.  Discrete Fourier transforms and
convolutions are computed in Python (their models are sums over lists, too slow here beyond small sizes)."""
import cmath, math, os, sys
sys.path.insert(0, os.path.dirname(os.path.abspath(__file__)))
import floatrun
from floatrun import Runner, Con, force, prim, PRIM

theories = sys.argv[1] if len(sys.argv) > 1 else "/verif/rocq/theories"
datafile = sys.argv[2] if len(sys.argv) > 2 else "/repo/shipgrav/tests/ex_files/DGStest_laptop.dat"


# ---- lists
def aslist(v):
    v = force(v)
    out = []
    while v.name == "cons":
        out.append(force(v.args[-2]))
        v = force(v.args[-1])
    return out


def mklist(l):
    v = Con("nil", (None,))
    for x in reversed(l):
        v = Con("cons", (None, x, v))
    return v


def cx(v):
    v = force(v)
    return complex(force(v.args[-2]), force(v.args[-1]))


def mkcx(z):
    return Con("pair", (None, None, z.real, z.imag))


def dft(x, s):
    n = len(x)
    w = [cmath.exp(s * 2j * math.pi * k / n) for k in range(n)]
    return [sum(x[j] * w[j * k % n] for j in range(n)) for k in range(n)]


def dft2(g, s):
    rows = [dft(r, s) for r in g]
    return [list(r) for r in zip(*[dft(list(c), s) for c in zip(*rows)])]


def fft2(sign, scale):
    def f(ny, nx, g):
        a = [[cx(z) for z in aslist(r)] for r in aslist(g)]
        b = dft2(a, sign)
        k = 1 / (nx * ny) if scale else 1
        return mklist([mklist([mkcx(z * k) for z in r]) for r in b])
    return f


def convolve_full(a, v):
    a, v = aslist(a), aslist(v)
    out = [0.0] * (len(a) + len(v) - 1)
    for i, x in enumerate(a):
        for j, y in enumerate(v):
            out[i + j] += x * y
    return mklist(out)


def lfilter_fir(b, x):
    b, x = aslist(b), aslist(x)
    return mklist([sum(b[j] * x[k - j] for j in range(min(k + 1, len(b)))) for k in range(len(x))])


def native(on):
    for k, v in {"M_Fft.fft2": prim(3, fft2(-1, False)), "M_Fft.ifft2": prim(3, fft2(1, True)),
                 "M_Np.convolve_full": prim(2, convolve_full), "M_CC.lfilter_fir": prim(2, lfilter_fir)}.items():
        if on:
            PRIM[k] = v
        else:
            PRIM.pop(k, None)


# ---- numpy.random.default_rng(seed).random(n): SeedSequence and PCG64
def default_rng(seed, n):
    M = 0xFFFFFFFF
    INIT_A, MULT_A, INIT_B, MULT_B, L, R = 0x43b0d7e5, 0x931e8875, 0x8b51f9dd, 0x58f38ded, 0xca01f9dd, 0x4973f715
    hc = [INIT_A]

    def hashmix(v):
        v = (v ^ hc[0]) & M
        hc[0] = (hc[0] * MULT_A) & M
        v = (v * hc[0]) & M
        return v ^ (v >> 16)

    def mix(x, y):
        r = ((L * x) & M) - ((R * y) & M)
        r &= M
        return r ^ (r >> 16)
    pool = [hashmix(seed if i == 0 else 0) for i in range(4)]
    for i in range(4):
        for j in range(4):
            if i != j:
                pool[j] = mix(pool[j], hashmix(pool[i]))
    h = INIT_B
    words = []
    for i in range(8):
        v = pool[i % 4] ^ h
        h = (h * MULT_B) & M
        v = (v * h) & M
        words.append(v ^ (v >> 16))
    w64 = [words[2 * i] | words[2 * i + 1] << 32 for i in range(4)]
    m128 = (1 << 128) - 1
    mult = 0x2360ED051FC65DA44385DF649FCCF645
    state0 = w64[0] << 64 | w64[1]
    inc = ((w64[2] << 64 | w64[3]) << 1 | 1) & m128
    st = 0
    st = (st * mult + inc) & m128
    st = (st + state0) & m128
    st = (st * mult + inc) & m128
    out = []
    for _ in range(n):
        st = (st * mult + inc) & m128
        x = (st >> 64) ^ (st & ((1 << 64) - 1))
        rot = st >> 122
        x = (x >> rot | x << (-rot & 63)) & ((1 << 64) - 1)
        out.append((x >> 11) / 9007199254740992.0)
    return out


def lit(x):
    """a float as an exact Coq real number"""
    n, d = float(x).as_integer_ratio()
    return "(IZR (%d) / IZR %d)" % (n, d)


def rl(l):
    return "[" + "; ".join(lit(x) for x in l) + "]"


def linspace(a, b, n):
    return [a + (b - a) * i / (n - 1) for i in range(n)]


bad = []


def check(name, got, want, tol):
    ok = abs(got - want) <= tol
    print("%-34s model %.10g  asserted %.10g  %s" % (name, got, want, "ok" if ok else "DIFFERENT"))
    if not ok:
        bad.append(name)


def solve(rows, y):
    """least squares by the normal equations; zero columns get the coefficient 0"""
    n = len(rows[0])
    A = [[sum(r[i] * r[j] for r in rows) for j in range(n)] + [sum(r[i] * z for r, z in zip(rows, y))] for i in range(n)]
    live = [i for i in range(n) if A[i][i] != 0]
    A = [[A[i][j] for j in live] + [A[i][n]] for i in live]
    m = len(live)
    for i in range(m):
        p = max(range(i, m), key=lambda k: abs(A[k][i]))
        A[i], A[p] = A[p], A[i]
        for k in range(m):
            if k != i:
                f = A[k][i] / A[i][i]
                A[k] = [a - f * b for a, b in zip(A[k], A[i])]
    out = [0.0] * n
    for k, i in enumerate(live):
        out[i] = A[k][m] / A[k][k]
    return out


def main():
    r = Runner(theories)
    run = r.run
    native(False)
    assert abs(default_rng(123, 1)[0] - 0.6823518632481435) < 1e-15
    # test_utils.py
    x = [0.0] * 101
    x[50] = 1.0
    y = run("M_Gauss.gaussian_filter %s 10" % rl(x))
    y = run("M_Gauss.gaussian_filter %s 10" % rl(y[::-1]))
    check("gaussian_filter", y[50], 0.12975, 1e-3)
    # test_nav.py
    lat = linspace(40, 41, 100)
    vn, ve = run("M_Nav.latlon_to_EN %s %s 1" % (rl([70.0] * 100), rl(lat)))
    # the test calls the first result ve
    check("latlon_to_EN", vn[5], 1121.5717, 1e-3)
    check("latlon_to_EN, other component", ve[5], 0, 1e-7)
    course, vel = run("M_Nav.ENvel_to_course_heading1 %s %s" % (lit(vn[5]), lit(ve[5])))
    check("course", course, 90, 1e-3)
    check("speed", vel, vn[5], 1e-9)
    # test_grav_nodata.py
    g = run("M_Four.grav1d_padded %s %s 1 0.4" % (rl(linspace(0, 100, 10)), rl(linspace(10, 15, 10))))
    check("grav1d_padded", g[1], 0.000157, 1e-6)
    dflt = "3300 1000 3e-5 1e-6"
    T, W = run("M_Therm.therm_halfspace [20000] [1000] 0.02 1350 false " + dflt)
    check("therm_halfspace T", T[0][0], 135.2263, 1e-3)
    check("therm_halfspace W", W[0], 368.3393, 1e-3)
    Z, W = run("M_Therm.therm_Z_halfspace [20000] 135.2263 0.02 1350 false " + dflt)
    check("therm_Z_halfspace Z", Z[0][1], 1e3, 1e-3)
    check("therm_Z_halfspace W", W[0], 368.3393, 1e-3)
    T, W = run("M_Therm.therm_plate [20000] [1000] 0.02 100000 1350 false " + dflt)
    check("therm_plate T", T[0][0], 134.0867, 1e-3)
    check("therm_plate W", W[0], 381.6513, 1e-3)
    Z = run("M_Therm.therm_Z_plate [20000] [134.0867] 0.02 100000 1350 false 0 100000 100 " + dflt)
    check("therm_Z_plate", Z[0][0], 1000, 0)
    rho = default_rng(123, 25)
    grid = "[" + "; ".join(rl([1e4 * v for v in rho[5 * i:5 * i + 5]]) for i in range(5)) + "]"
    s = run("M_Four.layer 5 5 %s 100 100 3 5" % grid)
    check("grav2d_layer_variable_density", s[0][0], 130.877533, 1e-3)
    grid = "[" + "; ".join(rl(rho[5 * i:5 * i + 5]) for i in range(5)) + "]"
    s = run("M_Four.grav2d_folding %s %s %s 100 100 0.6 6000 true 5" % (rl(range(5)), rl(range(5)), grid))
    check("grav2d_folding", s[0][0], -0.0043244755, 1e-6)
    native(True)
    r = Runner(theories)
    run = r.run
    sig = rl([10 * v for v in default_rng(123, 1000)])
    args = "1000 1 1.3 0 10 0.4 45 25"
    C, _ = run("M_Crust.crustal_thickness_2D %s %s false" % (sig, args))
    check("crustal_thickness_2D", C[0][0], 0.04019, 1e-3)
    C2, _ = run("M_Crust.crustal_thickness_2D %s %s true" % (sig, args))
    check("crustal_thickness_2D, back", C2[-1][0], C[0][0], 0)
    # test_grav_data.py
    rows = [l.split(",") for l in open(datafile)]
    col = lambda k: [float(w[k]) for w in rows]
    lon, lat, rgrav = col(15), col(14), col(1)
    n = len(rows)
    dt = "[" + "; ".join("M_Cal.mk_datetime %d %d %d %d %d %d %d (Some 0%%Z)" %
                         (tuple(int(w[k]) for k in range(19, 24)) + (int(float(w[24])), round(float(w[24]) % 1 * 1e6))) for w in rows) + "]"
    tide = run("M_Tide.longman_tide_prediction %s %s %s (M_Tide.Alt 0) false" % (rl(lon), rl(lat), dt))[1]
    check("longman_tide_prediction", tide[0], -0.079599, 1e-6)
    eot = run("M_Corr.eotvos_full %s %s %s 1 6378137 6356752.3142" % (rl(lon[:20]), rl(lat[:20]), rl([0.0] * 20)))
    check("eotvos_full", eot[0], -56.90367, 1e-3)
    check("free_air_second_order", run("M_Corr.free_air_second_order %s 0 false" % lit(lat[0])), 0, 0)
    eot = run("M_Corr.eotvos_full %s %s %s 1 6378137 6356752.3142" % (rl(lon), rl(lat), rl([0.0] * n)))
    wgs = run("map M_Corr.wgs_grav %s" % rl(lat))
    faa = [g + 969143 - w + e + t for g, w, e, t in zip(rgrav, wgs, eot, tide)]
    df = run("M_CC.cc_table %s None 1" % " ".join(rl(c) for c in (faa, col(11), col(10), col(12), col(13), [0.0] * n)))
    ve, vcc, al, ax, lev, g = df[1:]
    b = solve([list(z) + [1.0] for z in zip(ve, vcc, al, ax, lev)], g)
    check("cross coupling, ax", b[3], -3.428237, 1e-4)
    check("cross coupling, ve", b[0], 0.055732, 1e-4)
    print("all agree" if not bad else "DIFFERENT: %s" % bad)


if __name__ == "__main__":
    floatrun.main(main)
    sys.exit(1 if bad else 0)
