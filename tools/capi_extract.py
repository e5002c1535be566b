#!/usr/bin/env python3
"""Reads the structs and the field by field conversions of the C API, of the
Hourglass layer and of the network simulation from the sources as text, and
prints rocq/theories/CapiTables.v.  Only this file's output is built; the tool
is kept so that the tables can be compared with the sources again."""
import re, sys, glob
R = '/repo/SilKit/'
INC = R + 'include/silkit/'

def text(f):
    t = open(f).read()
    t = re.sub(r'/\*.*?\*/', lambda m: re.sub(r'[^\n]', ' ', m.group(0)), t, flags=re.S)
    t = re.sub(r'//[^\n]*', '', t)
    t = re.sub(r'[ \t]*#[^\n]*', '', t)
    return t

PRIM = {'uint8_t': 'U8', 'uint16_t': 'U16', 'uint32_t': 'U32', 'uint64_t': 'U64',
        'int8_t': 'I8', 'int16_t': 'I16', 'int32_t': 'I32', 'int64_t': 'I64', 'bool': 'TBool', 'size_t': 'U64',
        'std::chrono::nanoseconds': 'I64', 'void*': 'TPtr', 'SilKit_ByteVector': 'TBytes',
        'Util::Span<const uint8_t>': 'TBytes', 'std::array<uint8_t, 8>': 'TArr8'}
ALIAS = {}
PRIM['SilKit_Bool'] = 'CBool'
CSTRUCT = {}   # name -> (file, line, [(type, name)])
XSTRUCT = {}

for f in sorted(glob.glob(INC + 'capi/*.h')):
    t = text(f)
    for m in re.finditer(r'typedef\s+(u?int\d+_t|size_t)\s+(SilKit_\w+)\s*;', t):
        ALIAS[m.group(2)] = m.group(1)
    for m in re.finditer(r'typedef\s+(SilKit_\w+)\s+(SilKit_\w+)\s*;', t):
        ALIAS[m.group(2)] = m.group(1)
    for m in re.finditer(r'(?:typedef\s+)?struct\s*(SilKit_\w+)?\s*\{([^}]*)\}\s*(SilKit_\w+)?\s*;', t):
        name = m.group(3) or m.group(1)
        line = t[:m.start()].count('\n') + 1
        end = t[:m.end()].count('\n') + 1
        fs = []
        for d in m.group(2).split(';'):
            d = ' '.join(d.split())
            if not d or '(' in d: continue
            a = re.match(r'(?:const )?(.*?)\s*(\*?)\s*(\w+)(\[\w+\])?$', d)
            fs.append((a.group(1) + a.group(2), a.group(3), a.group(4)))
        CSTRUCT[name] = (f, line, end, fs)

XFILES = ['services/can/CanDatatypes.hpp', 'services/ethernet/EthernetDatatypes.hpp', 'services/lin/LinDatatypes.hpp',
          'services/flexray/FlexrayDatatypes.hpp',
          'experimental/services/lin/LinControllerExtensions.hpp', 'experimental/services/lin/LinDatatypesExtensions.hpp']
NS = 'experimental/netsim/NetworkSimulatorDatatypes.hpp'
import os
ALIAS['TransmitDirection'] = 'uint8_t'       # include/silkit/services/datatypes.hpp 18
ALIAS['EthernetBitrate'] = 'uint32_t'        # include/silkit/services/ethernet/EthernetDatatypes.hpp 25
ALIAS['FlagMask'] = 'SilKit_FlexrayHeader_Flag'
for f in XFILES + [NS]:
    if not os.path.exists(INC + f): continue
    t = text(INC + f)
    pre = 'netsim.' if f == NS else ''
    for m in re.finditer(r'using\s+(\w+)\s*=\s*(SilKit_\w+)\s*;', t): ALIAS[m.group(1)] = m.group(2)
    for m in re.finditer(r'enum class (\w+)\s*:\s*(\w+)', t): ALIAS[pre + m.group(1)] = m.group(2)
    for m in re.finditer(r'struct (\w+)\s*\{((?:[^{}]|\{[^{}]*\})*)\}\s*;', t):
        line = t[:m.start()].count('\n') + 1
        end = t[:m.end()].count('\n') + 1
        body = re.sub(r'(enum class|using)[^;]*;', '', m.group(2))
        fs = []
        for d in body.split(';'):
            d = ' '.join(re.sub(r'\{.*', '', d, flags=re.S).split())
            d = re.sub(r'\s*=.*', '', d)
            if not d or '(' in d: continue
            a = re.match(r'(.*?)\s+(\w+)$', d.replace('void*', 'void* '))
            if not a: sys.exit('cannot read field: ' + d + ' of ' + m.group(1))
            ty = a.group(1)
            ty = ty.replace('SilKit::', '')
            if not ty.startswith('Util::Span'):
                ty = re.sub(r'Services::\w+::', '', ty)
            fs.append((ty, a.group(2), None))
        XSTRUCT[pre + m.group(1)] = (INC + f, line, end, fs)

for c in ('SymbolTransmit', 'Wakeup'):   # derived from, or typedefs of, the symbol event
    XSTRUCT['Flexray%sEvent' % c] = XSTRUCT['FlexraySymbolEvent']
    CSTRUCT['SilKit_Flexray%sEvent' % c] = CSTRUCT['SilKit_FlexraySymbolEvent']

def prim(ty, pre=''):
    for _ in range(6):
        if ty in PRIM: return PRIM[ty]
        if pre + ty in ALIAS and ALIAS[pre + ty] != ty: ty = ALIAS[pre + ty]; continue
        if ty in ALIAS: ty = ALIAS[ty]; continue
        return None
    return None

def own(name, table):
    """The fields of the struct itself: nested structs (or structs pointed to) are left out."""
    out = []; nested = []
    pre = 'netsim.' if name.startswith('netsim.') else ''
    f, l, e, fs = table[name]
    for ty, n, arr in fs:
        if ty == 'SilKit_StructHeader': out.append((n, 'U64')); continue
        if arr: out.append((n, 'TArr8' if arr == '[8]' else 'TArr64')); continue
        p = prim(ty, pre)
        if p: out.append((n, p)); continue
        if ty.startswith('std::vector'): continue
        base = ty.rstrip('*').strip()
        if base in ('SilKit_LinFrameResponse', 'SilKit_FlexrayTxBufferConfig') and n in ('frameResponses', 'bufferConfigs'): continue
        if base in table: nested.append((n, base)); continue
        sys.exit('unknown type %s of %s.%s' % (ty, name, n))
    return out, nested

def coqname(n): return n.replace('netsim.', 'NetSim_').replace('SilKit_Experimental_', '').replace('SilKit_', '')

# identifiers of the C structs
ids = {}
t = text(INC + 'capi/InterfaceIdentifiers.h') if False else open(INC + 'capi/InterfaceIdentifiers.h').read()
svc = {m.group(1): int(m.group(2)) for m in re.finditer(r'#define SK_ID_SERVICE_(\w+)\s+(\d+)', t)}
num = {m.group(1): int(m.group(2)) for m in re.finditer(r'#define (SilKit_\w+_(?:DATATYPE_ID|VERSION))\s+(\d+)', t)}
idl = {}
for m in re.finditer(r'#define (SilKit_\w+)_STRUCT_VERSION\s+\\?\s*SK_ID_MAKE\(\s*(\w+),\s*(SilKit_\w+?)\s*\)', t):
    idl[m.group(1)] = (m.group(2), m.group(3), t[:m.start()].count('\n') + 1)

def layout(name, table, prefix=''):
    out, nested = own(name, table)
    res = [(prefix + n, t) for n, t in out]
    for n, b in nested: res += layout(b, table, prefix + n + '.')
    return res

def headers(name, prefix=''):
    """The struct headers of a C struct and of the structs it points to."""
    res = [(prefix + 'structHeader', name)]
    for n, b in own(name, CSTRUCT)[1]: res += headers(b, prefix + n + '.')
    return res

# ---------------------------------------------------------------- statements
def path(e, roots):
    e = e.strip()
    e = re.sub(r'^\(\*(.*)\)$', r'\1', e).lstrip('*').lstrip('&')
    e = e.replace('->', '.').strip()
    for r in sorted(roots, key=len, reverse=True):
        if e == r: return (roots[r][0], roots[r][1].rstrip('.'))
        if e.startswith(r + '.'): return (roots[r][0], (roots[r][1] + e[len(r) + 1:]))
    return None

def strip_type(t):
    t = t.strip().replace('SilKit::', '')
    t = re.sub(r'^(Experimental::)?(NetworkSimulation::)?(Services::)?(\w+::)*', '', t)
    return t

def rhs(e, roots):
    """-> (kind, casts, field)"""
    e = ' '.join(e.split())
    m = re.match(r'^static_cast<([^>]*)>\s*\((.*)\)$', e)
    if m:
        k, c, f = rhs(m.group(2), roots)
        t = m.group(1); p = prim(strip_type(t), 'netsim.') or prim(strip_type(t))
        if not p: sys.exit('cast to unknown type ' + t)
        return (k, c + [p], f)
    m = re.match(r'^std::chrono::nanoseconds\{(.*)\}$', e)
    if m: k, c, f = rhs(m.group(1), roots); return (k, c + ['I64'], f)
    m = re.match(r'^(?:SilKit::Util::)?To(?:Span|SilKitByteVector)\((.*)\)$', e)
    if m: return ('Cpy', [], rhs(m.group(1), roots)[2])
    m = re.match(r'^SilKit::Util::Span<const uint8_t>\{(.*)\.data, (.*)\.size\}$', e)
    if m: return ('Cpy', [], rhs(m.group(1), roots)[2])
    m = re.match(r'^\{dataPointer, (.*)\.size\(\)\}$', e)
    if m: return ('CpyE', [], rhs(m.group(1), roots)[2])
    m = re.match(r'^\((?!\*)([\w:]+)\)\s*(.*)$', e)
    if m:
        k, c, f = rhs(m.group(2), roots)
        t = m.group(1); p = prim(strip_type(t), 'netsim.') or prim(strip_type(t))
        if not p: sys.exit('cast to unknown type ' + t)
        return (k, c + [p], f)
    m = re.match(r'^(.*) == SilKit_True$', e)
    if m: return ('AsgTrue', [], rhs(m.group(1), roots)[2])
    m = re.match(r'^(.*)\.count\(\)$', e)
    if m: return rhs(m.group(1), roots)
    p = path(e, roots)
    if not p: sys.exit('cannot read expression: ' + e + ' with ' + str(roots))
    return ('Asg', [], p[1])

FUN = {}
H = INC + 'detail/impl/HourglassConversions.hpp'
ht = text(H)
for m in re.finditer(r'inline void (assignCxxToC|assignCToCxx)\(\s*const ([\w:]+)[&*] (\w+),\s*([\w:]+)& (\w+)\)\s*\{', ht):
    i = m.end(); d = 1
    while d:
        d += {'{': 1, '}': -1}.get(ht[i], 0); i += 1
    FUN[(m.group(1), m.group(2).split('::')[-1] if 'NetworkSimulation' not in m.group(2) else 'netsim.' + m.group(2).split('::')[-1])] = \
        (ht[m.end():i - 1], m.group(3), m.group(5), ht[:m.start()].count('\n') + 1, ht[:i].count('\n') + 1)

def stmts(body, roots, types, guard='Always'):
    """body: text; roots: variable -> (side, prefix); types: path of side -> struct name, for nested calls"""
    out = []
    i = 0
    while i < len(body):
        m = re.match(r'\s+', body[i:])
        if m: i += m.end(); continue
        m = re.match(r'if\s*\(', body[i:])
        if m:
            j = i + m.end(); d = 1
            while d: d += {'(': 1, ')': -1}.get(body[j], 0); j += 1
            cond = ' '.join(body[i + m.end():j - 1].split())
            k = body.index('{', j); q = k + 1; d = 1
            while d: d += {'{': 1, '}': -1}.get(body[q], 0); q += 1
            h = [x[1] for x in roots.values() if x[0] == 'S'][0] + 'structHeader'
            if re.search(r'GET_VERSION.*>= 2', cond): g = 'VerGe "%s" 2' % h
            elif cond == 'inputVersion == 1 || inputVersion == 2': g = 'VerIn "%s" [1; 2]' % h
            elif cond == 'inputVersion == 2': g = 'VerIn "%s" [2]' % h
            else: g = 'NonZero%s "%s"' % path(cond, roots)
            out += stmts(body[k + 1:q - 1], roots, types, g)
            i = q; continue
        m = re.match(r'for\s*\([^{]*\{', body[i:])
        if m:
            q = i + m.end(); d = 1
            while d: d += {'{': 1, '}': -1}.get(body[q], 0); q += 1
            i = q; continue          # the lists are converted element by element, see ListConv
        j = body.index(';', i)
        st = ' '.join(body[i:j].split()); i = j + 1
        if not st or st.startswith('const auto') or st.startswith('auto*') or st.startswith('size_t i'): continue
        if st.startswith('SilKit_Struct_Init') or st.startswith('static_assert') or st.startswith('return'): continue
        if re.match(r'[\w:]+&? \w+(\{\}|\{0\})?$', st) or re.match(r'[\w:]+& \w+ = ', st): continue     # declarations
        m = re.match(r'ASSERT_VALID_(BOOL|POINTER)_PARAMETER\((.*)\)$', st)
        if m:
            p = m.group(2)
            if m.group(1) == 'POINTER' and not p.endswith('.data'): continue
            out.append((guard, 'ChkBool "%s"' % path(p, roots)[1] if m.group(1) == 'BOOL'
                        else 'ChkPtr "%s"' % path(p[:-5], roots)[1])); continue
        m = re.match(r'(assign|assignCxxToC|assignCToCxx|CToCxx|CxxToC)\((.*), (.*)\)$', st)
        if m:
            a, b = m.group(2), m.group(3)
            if m.group(1) == 'assign': a, b = b, a
            out += CALL(m.group(1), a, b, roots, guard, types); continue
        m = re.match(r'(?:std::copy_n|memcpy)\((.*), (.*), (.*)\)$', st)
        if m:
            a, b, c = m.groups()
            if st.startswith('memcpy'): d_, s_ = a, b
            else: s_, d_ = a, c
            f = lambda e: path(re.sub(r'\.data\(\)$', '', e), roots)
            out.append((guard, 'Cpy "%s" "%s"' % (f(d_)[1], f(s_)[1]))); continue
        m = re.match(r'([^=]*?) = (.*)$', st)
        if not m: sys.exit('cannot read statement: ' + st)
        l, r = m.groups()
        if r.startswith('&') or 'bufferConfigs' in l or 'frameResponses' in l or l.endswith('numFrameResponses') or l.endswith('numBufferConfigs'): continue
        if l.endswith('payload.data'): continue
        p = path(l, roots)
        if not p or p[0] != 'D': sys.exit('cannot read target: ' + l)
        if l.endswith('payload.size'):
            s_ = re.match(r'\(uint32_t\)(.*)\.size\(\)$', r).group(1)
            out.append((guard, 'CpyN "%s" "%s"' % (p[1][:-5], path(s_, roots)[1]))); continue
        k, c, f = rhs(r, roots)
        if k == 'Asg': out.append((guard, 'Asg "%s" [%s] "%s"' % (p[1], '; '.join(c), f)))
        else: out.append((guard, '%s "%s" "%s"' % (k, p[1], f)))
    return out


def lines(f, a, b): return '\n'.join(text(f).split('\n')[a - 1:b])
LINC = R + 'source/capi/CapiLin.cpp'
FLXC = R + 'source/capi/CapiFlexray.cpp'
SV = INC + 'detail/impl/services/'
# the overloads of assign / CToCxx called for nested structs: (function, struct) -> (file, first, last, source variable, target variable)
NEST = {('assign', 'SilKit_LinFrame'): (LINC, 21, 24, 'cFrame', 'cppFrame'),
        ('assign', 'SilKit_FlexrayClusterParameters'): (FLXC, 32, 51, 'clusterParameters', 'cppClusterParameters'),
        ('assign', 'SilKit_FlexrayNodeParameters'): (FLXC, 57, 90, 'nodeParameters', 'cppNodeParameters'),
        ('CxxToC', 'LinFrame'): (SV + 'lin/LinController.hpp', 495, 499, 'cxxLinFrame', 'cLinFrame'),
        ('CToCxx', 'SilKit_FlexrayHeader'): (SV + 'flexray/FlexrayController.hpp', 599, 603, 'cFlexrayHeader', 'cxxFlexrayHeader')}

def CALL(fn, a, b, roots, guard, types):
    pa, pb = path(a, roots)[1], path(b, roots)[1]
    name, table = types
    for q in pa.split('.'):
        name = dict(own(name, table)[1])[q]
    if fn in ('assignCxxToC', 'assignCToCxx'):
        body, va, vb, _, _ = FUN[(fn, name)]
    else:
        f, l1, l2, va, vb = NEST[(fn, name)]
        body = lines(f, l1, l2)
    return stmts(body, {va: ('S', pa + '.'), vb: ('D', pb + '.')}, types, guard)

CAN, ETH, LIN, FLX = (SV + x for x in ('can/CanController.hpp', 'ethernet/EthernetController.hpp', 'lin/LinController.hpp', 'flexray/FlexrayController.hpp'))
CANC, ETHC = R + 'source/capi/CapiCan.cpp', R + 'source/capi/CapiEthernet.cpp'
S, D = 'S', 'D'
# name, source struct, target struct, init ('C': SilKit_Struct_Init, 'Z': zeroed, 'U': left uninitialised), file, first, last, roots
SPEC = [
 # user to library
 ('can_frame_out', 'CanFrame', 'SilKit_CanFrame', 'C', CAN, 142, 148, {'msg': (S, ''), 'canFrame': (D, '')}),
 ('can_frame_in', 'SilKit_CanFrame', 'CanFrame', 'Z', CANC, 229, 235, {'message': (S, ''), 'frame': (D, '')}),
 ('eth_frame_out', 'EthernetFrame', 'SilKit_EthernetFrame', 'C', ETH, 275, 275, {'msg': (S, ''), 'ethernetFrame': (D, '')}),
 ('eth_frame_in', 'SilKit_EthernetFrame', 'EthernetFrame', 'U', ETHC, 239, 239, {'frame': (S, ''), 'ef': (D, '')}),
 ('lin_frame_out', 'LinFrame', 'SilKit_LinFrame', 'C', LIN, 495, 499, {'cxxLinFrame': (S, ''), 'cLinFrame': (D, '')}),
 ('lin_frame_in', 'SilKit_LinFrame', 'LinFrame', 'Z', LINC, 21, 24, {'cFrame': (S, ''), 'cppFrame': (D, '')}),
 ('lin_response_out', 'LinFrameResponse', 'SilKit_LinFrameResponse', 'C', LIN, 213, 218, {'response': (S, ''), 'linFrameResponse': (D, ''), 'linFrame': (D, 'frame.')}),
 ('lin_response_in', 'SilKit_LinFrameResponse', 'LinFrameResponse', 'Z', LINC, 122, 123, {'response': (S, ''), 'cppFrameResponse': (D, '')}),
 ('lin_init_response_out', 'LinFrameResponse', 'SilKit_LinFrameResponse', 'C', LIN, 150, 159, {'frameResponse': (S, ''), 'cFrame': (D, 'frame.'), 'cFrameResponse': (D, '')}),
 ('lin_init_response_in', 'SilKit_LinFrameResponse', 'LinFrameResponse', 'Z', LINC, 29, 31, {'cFrameResponse': (S, ''), 'cppFrameResponse': (D, '')}),
 ('lin_config_out', 'LinControllerConfig', 'SilKit_LinControllerConfig', 'C', LIN, 164, 168, {'config': (S, ''), 'linControllerConfig': (D, '')}),
 ('lin_config_in', 'SilKit_LinControllerConfig', 'LinControllerConfig', 'Z', LINC, 47, 48, {'cConfig': (S, ''), 'cppConfig': (D, '')}),
 ('lin_dynamic_out', 'LinControllerDynamicConfig', 'SilKit_Experimental_LinControllerDynamicConfig', 'C', LIN, 434, 436, {'dynamicConfig': (S, ''), 'cConfig': (D, '')}),
 ('lin_dynamic_in', 'SilKit_Experimental_LinControllerDynamicConfig', 'LinControllerDynamicConfig', 'Z', LINC, 55, 56, {'cConfig': (S, ''), 'cppConfig': (D, '')}),
 ('flx_cluster_out', 'FlexrayClusterParameters', 'SilKit_FlexrayClusterParameters', 'C', FLX, 517, 540, {'cxxFlexrayClusterParameters': (S, ''), 'cFlexrayClusterParameters': (D, '')}),
 ('flx_cluster_in', 'SilKit_FlexrayClusterParameters', 'FlexrayClusterParameters', 'U', FLXC, 32, 51, {'clusterParameters': (S, ''), 'cppClusterParameters': (D, '')}),
 ('flx_node_out', 'FlexrayNodeParameters', 'SilKit_FlexrayNodeParameters', 'C', FLX, 546, 571, {'cxxFlexrayNodeParameters': (S, ''), 'cFlexrayNodeParameters': (D, '')}),
 ('flx_node_in', 'SilKit_FlexrayNodeParameters', 'FlexrayNodeParameters', 'U', FLXC, 57, 90, {'nodeParameters': (S, ''), 'cppNodeParameters': (D, '')}),
 ('flx_buffer_out', 'FlexrayTxBufferConfig', 'SilKit_FlexrayTxBufferConfig', 'C', FLX, 577, 585, {'cxxFlexrayTxBufferConfig': (S, ''), 'cFlexrayTxBufferConfig': (D, '')}),
 ('flx_buffer_in', 'SilKit_FlexrayTxBufferConfig', 'FlexrayTxBufferConfig', 'Z', FLXC, 20, 26, {'config': (S, ''), 'cppConfig': (D, '')}),
 ('flx_update_out', 'FlexrayTxBufferUpdate', 'SilKit_FlexrayTxBufferUpdate', 'C', FLX, 591, 594, {'cxxFlexrayTxBufferUpdate': (S, ''), 'cFlexrayTxBufferUpdate': (D, '')}),
 ('flx_update_in', 'SilKit_FlexrayTxBufferUpdate', 'FlexrayTxBufferUpdate', 'U', FLXC, 180, 190, {'update': (S, ''), 'cppUpdate': (D, '')}),
 # library to user
 ('can_frame_event_out', 'CanFrameEvent', 'SilKit_CanFrameEvent', 'C', CANC, 49, 63, {'cppCanFrameEvent': (S, ''), 'frame': (D, 'frame.'), 'frameEvent': (D, '')}),
 ('can_frame_event_in', 'SilKit_CanFrameEvent', 'CanFrameEvent', 'Z', CAN, 161, 170, {'frameEvent': (S, ''), 'event': (D, '')}),
 ('can_transmit_event_out', 'CanFrameTransmitEvent', 'SilKit_CanFrameTransmitEvent', 'C', CANC, 102, 106, {'cppFrameTransmitEvent': (S, ''), 'frameTransmitEvent': (D, '')}),
 ('can_transmit_event_in', 'SilKit_CanFrameTransmitEvent', 'CanFrameTransmitEvent', 'Z', CAN, 284, 291, {'frameTransmitEvent': (S, ''), 'event': (D, '')}),
 ('can_state_event_out', 'CanStateChangeEvent', 'SilKit_CanStateChangeEvent', 'C', CANC, 142, 144, {'cppStateChangeEvent': (S, ''), 'stateChangeEvent': (D, '')}),
 ('can_state_event_in', 'SilKit_CanStateChangeEvent', 'CanStateChangeEvent', 'Z', CAN, 207, 208, {'stateChangeEvent': (S, ''), 'event': (D, '')}),
 ('can_error_event_out', 'CanErrorStateChangeEvent', 'SilKit_CanErrorStateChangeEvent', 'C', CANC, 180, 182, {'cppErrorStateChangeEvent': (S, ''), 'errorStateChangeEvent': (D, '')}),
 ('can_error_event_in', 'SilKit_CanErrorStateChangeEvent', 'CanErrorStateChangeEvent', 'Z', CAN, 245, 246, {'errorStateChangeEvent': (S, ''), 'event': (D, '')}),
 ('eth_frame_event_out', 'EthernetFrameEvent', 'SilKit_EthernetFrameEvent', 'C', ETHC, 75, 85, {'cppFrameEvent': (S, ''), 'cppFrame': (S, 'frame.'), 'frame': (D, 'ethernetFrame.'), 'frameEvent': (D, '')}),
 ('eth_frame_event_in', 'SilKit_EthernetFrameEvent', 'EthernetFrameEvent', 'Z', ETH, 120, 123, {'frameEvent': (S, ''), 'event': (D, '')}),
 ('eth_transmit_event_out', 'EthernetFrameTransmitEvent', 'SilKit_EthernetFrameTransmitEvent', 'C', ETHC, 125, 128, {'frameTransmitEvent': (S, ''), 'cEvent': (D, '')}),
 ('eth_transmit_event_in', 'SilKit_EthernetFrameTransmitEvent', 'EthernetFrameTransmitEvent', 'Z', ETH, 162, 164, {'frameTransmitEvent': (S, ''), 'event': (D, '')}),
 ('eth_state_event_out', 'EthernetStateChangeEvent', 'SilKit_EthernetStateChangeEvent', 'C', ETHC, 164, 166, {'stateChangeEvent': (S, ''), 'cStateChangeEvent': (D, '')}),
 ('eth_state_event_in', 'SilKit_EthernetStateChangeEvent', 'EthernetStateChangeEvent', 'Z', ETH, 202, 203, {'stateChangeEvent': (S, ''), 'event': (D, '')}),
 ('eth_bitrate_event_out', 'EthernetBitrateChangeEvent', 'SilKit_EthernetBitrateChangeEvent', 'C', ETHC, 203, 205, {'bitrateChangeEvent': (S, ''), 'cBitrateChangeEvent': (D, '')}),
 ('eth_bitrate_event_in', 'SilKit_EthernetBitrateChangeEvent', 'EthernetBitrateChangeEvent', 'Z', ETH, 240, 241, {'bitrateChangeEvent': (S, ''), 'event': (D, '')}),
 ('lin_status_event_out', 'LinFrameStatusEvent', 'SilKit_LinFrameStatusEvent', 'C-frame.', LINC, 269, 278, {'cppFrameStatusEvent': (S, ''), 'cFrame': (D, 'frame.'), 'cFrameStatusEvent': (D, '')}),
 ('lin_status_event_in', 'SilKit_LinFrameStatusEvent', 'LinFrameStatusEvent', 'Z', LIN, 255, 261, {'frameStatusEvent': (S, ''), 'event': (D, '')}),
 ('lin_sleep_event_out', 'LinGoToSleepEvent', 'SilKit_LinGoToSleepEvent', 'C', LINC, 314, 315, {'cppGoToSleepEvent': (S, ''), 'goToSleepEvent': (D, '')}),
 ('lin_sleep_event_in', 'SilKit_LinGoToSleepEvent', 'LinGoToSleepEvent', 'Z', LIN, 298, 298, {'goToSleepEvent': (S, ''), 'event': (D, '')}),
 ('lin_wakeup_event_out', 'LinWakeupEvent', 'SilKit_LinWakeupEvent', 'C', LINC, 349, 351, {'cppWakeupEvent': (S, ''), 'wakeupEvent': (D, '')}),
 ('lin_wakeup_event_in', 'SilKit_LinWakeupEvent', 'LinWakeupEvent', 'Z', LIN, 335, 336, {'wakeupEvent': (S, ''), 'event': (D, '')}),
 ('lin_slave_event_out', 'LinSlaveConfigurationEvent', 'SilKit_Experimental_LinSlaveConfigurationEvent', 'C', LINC, 388, 389, {'cppLinSlaveConfigurationEvent': (S, ''), 'slaveConfigurationEvent': (D, '')}),
 ('lin_slave_event_in', 'SilKit_Experimental_LinSlaveConfigurationEvent', 'LinSlaveConfigurationEvent', 'Z', LIN, 376, 376, {'slaveConfigurationEvent': (S, ''), 'event': (D, '')}),
 ('lin_header_event_out', 'LinFrameHeaderEvent', 'SilKit_Experimental_LinFrameHeaderEvent', 'C=SilKit_LinWakeupEvent', LINC, 440, 442, {'cppEvent': (S, ''), 'cEvent': (D, '')}),
 ('lin_header_event_in', 'SilKit_Experimental_LinFrameHeaderEvent', 'LinFrameHeaderEvent', 'Z', LIN, 450, 451, {'headerEvent': (S, ''), 'event': (D, '')}),
 ('flx_frame_event_out', 'FlexrayFrameEvent', 'SilKit_FlexrayFrameEvent', 'C', FLXC, 250, 266, {'msg': (S, ''), 'header': (D, 'frame.header.'), 'frame': (D, 'frame.'), 'message': (D, '')}),
 ('flx_frame_event_in', 'SilKit_FlexrayFrameEvent', 'FlexrayFrameEvent', 'Z', FLX, 237, 240, {'message': (S, ''), 'event': (D, '')}),
 ('flx_transmit_event_out', 'FlexrayFrameTransmitEvent', 'SilKit_FlexrayFrameTransmitEvent', 'C=SilKit_FlexrayFrameEvent', FLXC, 305, 322, {'msg': (S, ''), 'header': (D, 'frame.header.'), 'frame': (D, 'frame.'), 'message': (D, '')}),
 ('flx_transmit_event_in', 'SilKit_FlexrayFrameTransmitEvent', 'FlexrayFrameTransmitEvent', 'Z', FLX, 277, 281, {'cEvent': (S, ''), 'cxxEvent': (D, '')}),
 ('flx_wakeup_event_out', 'FlexrayWakeupEvent', 'SilKit_FlexrayWakeupEvent', 'C', FLXC, 358, 362, {'msg': (S, ''), 'message': (D, '')}),
 ('flx_wakeup_event_in', 'SilKit_FlexrayWakeupEvent', 'FlexrayWakeupEvent', 'Z', FLX, 318, 320, {'cEvent': (S, ''), 'cxxEvent': (D, '')}),
 ('flx_poc_event_out', 'FlexrayPocStatusEvent', 'SilKit_FlexrayPocStatusEvent', 'C', FLXC, 398, 408, {'msg': (S, ''), 'message': (D, '')}),
 ('flx_poc_event_in', 'SilKit_FlexrayPocStatusEvent', 'FlexrayPocStatusEvent', 'Z', FLX, 357, 366, {'cEvent': (S, ''), 'cxxEvent': (D, '')}),
 ('flx_symbol_event_out', 'FlexraySymbolEvent', 'SilKit_FlexraySymbolEvent', 'C', FLXC, 444, 447, {'msg': (S, ''), 'message': (D, '')}),
 ('flx_symbol_event_in', 'SilKit_FlexraySymbolEvent', 'FlexraySymbolEvent', 'Z', FLX, 403, 405, {'cEvent': (S, ''), 'cxxEvent': (D, '')}),
 ('flx_symbol_transmit_event_out', 'FlexraySymbolTransmitEvent', 'SilKit_FlexraySymbolTransmitEvent', 'C', FLXC, 482, 485, {'msg': (S, ''), 'message': (D, '')}),
 ('flx_symbol_transmit_event_in', 'SilKit_FlexraySymbolTransmitEvent', 'FlexraySymbolTransmitEvent', 'Z', FLX, 442, 444, {'cEvent': (S, ''), 'cxxEvent': (D, '')}),
 ('flx_cycle_event_out', 'FlexrayCycleStartEvent', 'SilKit_FlexrayCycleStartEvent', 'C', FLXC, 521, 523, {'msg': (S, ''), 'message': (D, '')}),
 ('flx_cycle_event_in', 'SilKit_FlexrayCycleStartEvent', 'FlexrayCycleStartEvent', 'Z', FLX, 481, 482, {'cEvent': (S, ''), 'cxxEvent': (D, '')}),
]
# network simulation: requests (library to user) end in a zeroed C++ struct, events (user to library) in an uninitialised one
REQ = ['CanFrameRequest', 'CanConfigureBaudrate', 'CanControllerMode', 'FlexrayHostCommand', 'FlexrayTxBufferConfigUpdate',
       'FlexrayTxBufferUpdate', 'FlexrayControllerConfig', 'EthernetFrameRequest', 'EthernetControllerMode', 'LinFrameRequest',
       'LinFrameHeaderRequest', 'LinWakeupPulse', 'LinControllerConfig', 'LinControllerStatusUpdate']
EVT = ['CanFrameEvent', 'CanFrameTransmitEvent', 'CanStateChangeEvent', 'CanErrorStateChangeEvent', 'FlexrayFrameEvent',
       'FlexrayFrameTransmitEvent', 'FlexraySymbolEvent', 'FlexraySymbolTransmitEvent', 'FlexrayCycleStartEvent',
       'FlexrayPocStatusEvent', 'EthernetFrameEvent', 'EthernetFrameTransmitEvent', 'EthernetStateChangeEvent',
       'EthernetBitrateChangeEvent', 'LinFrameStatusEvent', 'LinSendFrameHeaderRequest', 'LinWakeupEvent']
ELEM = ['LinFrameResponse', 'FlexrayTxBufferConfig']   # elements of the lists of requests

def snake(n): return re.sub(r'(?<!^)([A-Z])', r'_\1', n).lower()
OUT = []
def P(x): OUT.append(x)

def rng(f, a, b): return '%s %s' % (f.replace(R, 'SilKit/'), a if a == b else '%d-%d' % (a, b))

def emit_layout(n, table, done):
    key = ('C_' if table is CSTRUCT else 'X_') + coqname(n)
    if key in done: return key
    done.add(key)
    f, a, b, _ = table[n]
    l = layout(n, table)
    P('(* %s; the structs held by it, or pointed to, are part of it *)' % rng(f, a, b))
    P('Definition %s : layout :=\n  [%s].' % (key, ';\n   '.join('("%s", %s)' % x for x in l)))
    return key

def emit_conv(name, src, dst, init, cite, body, done):
    st, dt = (CSTRUCT if src in CSTRUCT else XSTRUCT), (CSTRUCT if dst in CSTRUCT else XSTRUCT)
    ks, kd = emit_layout(src, st, done), emit_layout(dst, dt, done)
    if init == 'U': ini = 'spans %s' % kd
    elif init == 'Z': ini = 'zeroed %s' % kd
    else:
        hs = []
        skip = init[2:] if init.startswith('C-') else None
        for h, s in headers(dst):
            if skip and h.startswith(skip): continue
            if init.startswith('C=') and h == 'structHeader': s = init[2:]
            hs.append('("%s", VI (struct_id id_%s))' % (h, coqname(s)))
        if skip:
            ini = 'map snd (filter (fun x => negb (fst x)) (map (fun e => (prefix "%s" (fst e), e)) ([%s] ++ zeroed %s)))' % (skip, '; '.join(hs), kd)
        else: ini = '[%s] ++ zeroed %s' % ('; '.join(hs), kd)
    P('(* %s *)' % cite)
    P('Definition cv_%s : conv :=\n  {| cv_dst := %s;\n     cv_init := %s;\n     cv_body :=\n      [%s] |}.' %
      (name, kd, ini, ';\n       '.join('(%s, %s)' % x for x in body)))

P('(* Tables of the C API: the identifiers of the structs, the fields of the structs')
P('   with the types they have, and the conversions between C structs and C++')
P('   structs, statement by statement in the order of the source.  Written by')
P('   tools/capi_extract.py from the text of the sources cited. *)')
P('From Coq Require Import String Ascii List ZArith Bool.')
P('From Verif Require Import CapiModel CapiSpec.')
P('Import ListNotations.')
P('Open Scope string_scope. Open Scope Z_scope. Open Scope list_scope.\n')
P('(* include/silkit/capi/InterfaceIdentifiers.h 68-347: service, data type, version of each struct *)')
for k, (s, d, l) in idl.items():
    P('Definition id_%s : sid := {| si_service := %d; si_type := %d; si_version := %d |}.' % (coqname(k), svc[s], num[d + '_DATATYPE_ID'], num[d + '_VERSION']))
P('Definition all_ids : list (string * sid) :=\n  [%s].\n' % ';\n   '.join('("%s", id_%s)' % (k, coqname(k)) for k in idl))
done = set()
for name, src, dst, init, f, a, b, roots in SPEC:
    st = CSTRUCT if src in CSTRUCT else XSTRUCT
    body = stmts(lines(f, a, b).replace('CxxToC(response.frame, linFrame)', 'CxxToC(response.frame, linFrame)'), roots, (src, st))
    emit_conv(name, src, dst, init, rng(f, a, b), body, done)
def netsim(n, cn, init, pre):
    for fn, s, d, i in (('assignCxxToC', n, cn, 'C'), ('assignCToCxx', cn, n, init)):
        body, va, vb, a, b = FUN[(fn, s)]
        emit_conv('%s_%s_%s' % (pre, snake(n.replace('netsim.', '')), 'out' if i == 'C' else 'in'), s, d, i, rng(H, a, b),
                  stmts(body, {va: ('S', ''), vb: ('D', '')}, (s, CSTRUCT if s in CSTRUCT else XSTRUCT)), done)
for n in REQ: netsim('netsim.' + n, 'SilKit_Experimental_NetSim_' + n, 'Z', 'req')
for n in ELEM: netsim(n, 'SilKit_' + n, 'Z', 'req')
for n in EVT: netsim(n, 'SilKit_' + n, 'U', 'evt')

# which conversions belong together; the fields that have another name in the C struct
CANF = [('canId', 'id'), ('dataField', 'data')]
CANE = [('frame.canId', 'frame.id'), ('frame.dataField', 'frame.data')]
NAMES = {'CanFrame': CANF, 'CanFrameEvent': CANE, 'netsim.CanFrameRequest': CANE, 'EthernetFrameEvent': [('frame.raw', 'ethernetFrame.raw')],
         'netsim.CanConfigureBaudrate': [('baudRate', 'rate'), ('fdBaudRate', 'fdRate'), ('xlBaudRate', 'xlRate')],
         'netsim.FlexrayHostCommand': [('command', 'chiCommand')], 'netsim.FlexrayTxBufferConfigUpdate': [('txBufferIndex', 'txBufferIdx')]}
def pair(name, x, c):
    long = 'true' if x in ('FlexrayFrameEvent', 'FlexrayFrameTransmitEvent') else 'false'
    return '{| p_name := "%s"; p_x := X_%s; p_c := C_%s; p_out := cv_%s_out; p_in := cv_%s_in;\n      p_names := [%s]; p_headers := [%s]; p_narrow := %s |}' % (
        name, coqname(x), coqname(c), name, name, '; '.join('("%s", "%s")' % q for q in NAMES.get(x, [])),
        '; '.join('("%s", id_%s)' % (h, coqname(s)) for h, s in headers(c)), long)
P('\n(* C++ to C, in CanController.hpp and its siblings, and back in source/capi; then the other way round *)')
user = [s for s in SPEC[:SPEC.index(next(q for q in SPEC if q[0] == 'can_frame_event_out'))] if s[0].endswith('_out')]
evs = [s for s in SPEC[SPEC.index(next(q for q in SPEC if q[0] == 'can_frame_event_out')):] if s[0].endswith('_out')]
P('Definition user_pairs : list pair :=\n  [%s].' % ';\n   '.join(pair(s[0][:-4], s[1], s[2]) for s in user))
P('Definition event_pairs : list pair :=\n  [%s].' % ';\n   '.join(pair(s[0][:-4], s[1], s[2]) for s in evs))
P('(* HourglassConversions.hpp *)')
nn = lambda n: snake(n)
P('Definition request_pairs : list pair :=\n  [%s].' % ';\n   '.join(
    [pair('req_' + nn(n), 'netsim.' + n, 'SilKit_Experimental_NetSim_' + n) for n in REQ] + [pair('req_' + nn(n), n, 'SilKit_' + n) for n in ELEM]))
P('Definition produced_pairs : list pair :=\n  [%s].' % ';\n   '.join(pair('evt_' + nn(n), n, 'SilKit_' + n) for n in EVT))

# the events given to the network simulation
f = R + 'source/capi/CapiNetworkSimulator.cpp'
t = text(f)
for m in re.finditer(r'SilKit_Experimental_(Can|FlexRay|Ethernet|Lin)EventProducer_Produce\(', t):
    e = t.index('CAPI_CATCH_EXCEPTIONS', m.end())
    cs = re.findall(r'case (SilKit_\w+)_DATATYPE_ID:.*?assignCToCxx\(\((SilKit_\w+)\*\)cEvent', t[m.end():e], re.S)
    if not cs: sys.exit('no cases of ' + m.group(1) + t[m.end():m.end()+900])
    P('(* %s *)' % rng(f, t[:m.start()].count('\n') + 1, t[:e].count('\n') + 1))
    P('Definition %s_cases : list (Z * string) :=\n  [%s].' % (m.group(1).lower(), '; '.join('(si_type id_%s, "%s")' % (coqname(a), b) for a, b in cs)))

# the functions of the C API: parameters and checks
STRUCTS = set(CSTRUCT)
P('\n(* The functions of the C API: the kinds of the parameters, and the checks in the')
P('   order in which they are made, all before anything else is done *)')
FN = []
for f in sorted(glob.glob(R + 'source/capi/Capi*.cpp')):
    t = text(f)
    for m in re.finditer(r'SilKit_ReturnCode SilKitCALL\s+(SilKit_\w+)\(([^)]*)\)\s*(?:try)?\s*\{', t):
        name = m.group(1)
        if name == 'SilKit_ReturnCodeToString': continue
        i = m.end(); d = 1
        while d: d += {'{': 1, '}': -1}.get(t[i], 0); i += 1
        body = t[m.end():i]
        if not t[i:].lstrip().startswith('CAPI_CATCH_EXCEPTIONS'): sys.exit('no handler for exceptions: ' + name)
        ps = []
        for q in m.group(2).split(','):
            q = ' '.join(q.split())
            a = re.match(r'(?:const )?(.*?)\s*(\**)\s*(\w+)$', q)
            ty, st, pn = a.groups()
            if st == '**': k = 'KOut'
            elif ty == 'void': k = 'KObject' if pn == 'userSimulatedNetwork' else 'KContext'   # must not be null
            elif ty == 'char': k = 'KString'
            elif ty.endswith('_t') and ty.startswith('SilKit_'): k = 'KHandler'
            elif st == '*' and ty in CSTRUCT and any(x[0] == 'SilKit_StructHeader' for x in CSTRUCT[ty][3]): k = 'KStruct "%s"' % ty
            elif st == '*' and ty == 'SilKit_StructHeader': k = 'KHeader'
            elif st == '*' and ty == 'SilKit_ByteVector': k = 'KVector'
            elif st == '*' and (ty in ALIAS or ty in PRIM): k = 'KOut'
            elif st == '*': k = 'KObject'
            else: k = 'KValue'
            ps.append('("%s", %s)' % (pn, k))
        cs = []
        for a, b in re.findall(r'ASSERT_VALID_(\w+)\(([^;]*)\);', body):
            k = {'POINTER_PARAMETER': 'CkPointer', 'OUT_PARAMETER': 'CkOut', 'HANDLER_PARAMETER': 'CkHandler', 'BOOL_PARAMETER': 'CkBool',
                 'STRUCT_HEADER': 'CkHeader', 'PLAIN_STRUCT_HEADER': 'CkPlain'}[a]
            if b.endswith('payload.data'): continue    # part of the conversion cv_flx_update_in
            if '->' in b: cs.append('%s "%s" (Some "%s")' % (k, b.split('->')[0], b.split('->')[1]))
            else: cs.append('%s "%s" None' % (k, b))
        cn = 'f_' + name[7:]
        FN.append((name, cn))
        P('(* %s *)' % rng(f, t[:m.start()].count('\n') + 1, t[:i].count('\n') + 2))
        P('Definition %s : capi_function :=\n  {| fn_name := "%s";\n     fn_params := [%s];\n     fn_checks := [%s] |}.' % (cn, name, '; '.join(ps), '; '.join(cs)))
P('Definition capi : list capi_function :=\n  [%s].' % ';\n   '.join(x[1] for x in FN))
open('/verif/rocq/theories/CapiTables.v', 'w').write('\n'.join(OUT) + '\n')
