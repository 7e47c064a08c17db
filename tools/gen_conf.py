#!/usr/bin/env python3
"""Copy the numbers in /repo/pyspectral/tests into rocq/theories/Conf_Data.v.

Reads the test files as text; runs nothing of them."""
import re
from fractions import Fraction
T = '/repo/pyspectral/tests/'


def numbers(file, start, end):
    s = open(T + file).read()
    i = s.index(start) + len(start)
    return re.findall(r'-?\d+\.?\d*(?:e[-+]?\d+)?', s[i:s.index(end, i)])


def lit(n):
    m = re.fullmatch(r'(-?)(\d+)\.?(\d*)(?:e([-+]?\d+))?', n)
    num, e = int(m[2] + m[3]), int(m[4] or 0) - len(m[3])
    if m[1]:
        num = -num
    num, e = (num * 10 ** e, 0) if e >= 0 else (num, e)
    return f'({num},{-e})'


out = ['(** Numbers of the repository\'s unit tests as pairs (m, k) for m / 10^k; written by',
       '    tools/gen_conf.py from /repo/pyspectral/tests. *)',
       'From Coq Require Import ZArith List.', 'Import ListNotations.', 'Local Open Scope Z_scope.', '']


def emit(name, where, *a):
    ns = [lit(n) for n in numbers(*a)]
    lines, cur = [], ''
    for n in ns:
        if len(cur) + len(n) > 108:
            lines.append(cur)
            cur = ''
        cur += n + '; '
    lines.append(cur[:-2])
    out.append(f'(** {where} *)')
    out.append(f'Definition {name} : list (Z * Z) := [\n  ' + '\n  '.join(lines).replace(',', ', ') + '].')


R = 'test_rad_tb_conversions.py'
emit('d_modis_wavelength', 'tests/test_rad_tb_conversions.py:25-33', R, "['wavelength'] = np.array([", ']')
emit('d_modis_response', 'tests/test_rad_tb_conversions.py:35-42', R, "['response'] = np.array([", ']')
emit('d_sev_wavenumber', 'tests/test_rad_tb_conversions.py:50-76', R, "WAVN = np.array([", ']')
emit('d_sev_response', 'tests/test_rad_tb_conversions.py:78-111', R, "RESP = np.array([", ']')
U = 'test_utils.py'
emit('d_ahi_cw', 'tests/test_utils.py:97-102', U, 'wvl = [', ']')
emit('d_ch3_wavelength', 'tests/test_utils.py:103-105', U, 'ch3_wvl = np.array([', ']')
emit('d_ch3_response', 'tests/test_utils.py:106-109', U, 'ch3_resp = np.array([', ']')
emit('d_wavenumber', 'tests/test_utils.py:46-56', U, "['wavenumber'] = np.array([", ']')
emit('d_ray_lut', 'tests/data.py:5-244', 'data.py', 'TEST_RAYLEIGH_LUT = np.array(', ', dtype')
A = 'test_atm_correction_ir.py'
emit('d_satz', 'tests/test_atm_correction_ir.py:16-35', A, 'SATZ = np.ma.array([', ', mask')
emit('d_tbs', 'tests/test_atm_correction_ir.py:37-66', A, 'TBS = np.ma.array([', ', mask')
emit('d_res', 'tests/test_atm_correction_ir.py:68-97', A, 'RES = np.ma.array([', ', mask')
open('/verif/rocq/theories/Conf_Data.v', 'w').write('\n'.join(out) + '\n')
