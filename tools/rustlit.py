"""Conversion of Rust float literals to the model's exact decimal literals."""
import re


def dec(lit):
    """'2.499_999e-1' -> (mantissa, k) with value mantissa * 10**-k, k >= 0."""
    s = lit.replace('_f64', '').replace('f64', '').replace('_', '')
    m = re.fullmatch(r'(-?)(\d+)(?:\.(\d*))?(?:[eE]([+-]?\d+))?', s)
    if not m:
        raise ValueError(lit)
    sign, whole, frac, exp = m.groups()
    frac = (frac or '').rstrip('0')
    exp = int(exp or 0)
    digits = int(whole + frac)
    k = len(frac) - exp
    while k > 0 and digits % 10 == 0 and digits:
        digits //= 10
        k -= 1
    if k < 0:
        digits *= 10 ** (-k)
        k = 0
    if digits == 0:
        k = 0
    return (-digits if sign else digits), k


def coq(lit):
    m, k = dec(lit)
    ms = '(%d)' % m if m < 0 else '%d' % m
    return '(sdec %s %d)' % (ms, k)
