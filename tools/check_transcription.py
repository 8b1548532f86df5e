#!/usr/bin/env python3
"""Compare the model of the generated file with the file itself.

Reads Enums.v, Definitions.v, Frames.v and Accessors.v as text, writes out from them the Rust items they stand
for, and looks each one up in /repo/src/protocol/definitions.rs.  Both sides are compared without layout: spaces,
line comments, trailing commas and braces around a one-expression match arm do not count.

Also compares RepoText.v with the two files it stands for, SpecJson.v with /repo/codegen/specification.json and
the format codes of Encode.v with /repo/src/codec/mod.rs.

Prints one line per kind of item, the items of definitions.rs that no model definition stands for, and OK when
every expected item was found.  Nothing is compiled or run.  Usage: check_transcription.py [repo [verif]]
"""
import json
import re
import sys

repo = sys.argv[1] if len(sys.argv) > 1 else '/repo'
verif = sys.argv[2] if len(sys.argv) > 2 else '/verif'


def theory(name):
    text = open(f'{verif}/rocq/theories/{name}.v').read()
    return re.sub(r'\(\*.*?\*\)', '', text, flags=re.S)


ENUMS, DEFS, FRAMES, ACC = map(theory, ['Enums', 'Definitions', 'Frames', 'Accessors'])
SRC = open(f'{repo}/src/protocol/definitions.rs').read()


def norm(s):
    s = re.sub(r'//.*', '', s)
    s = re.sub(r'\s+', ' ', s)
    s = re.sub(r' ?(\W) ?', r'\1', s).strip()
    s = re.sub(r'=>\{([^{};]*)\},?', r'=>\1,', s)
    s = re.sub(r'=>\{([^{};]*(?:;[^{};]*)*)\},?', r'=>{\1},', s)
    return re.sub(r',([})\]>])', r'\1', s)


def items(src):
    """The top-level items of a Rust file, each with its attributes."""
    out, depth, start = [], 0, 0
    src = re.sub(r'//.*', '', src)
    for i, c in enumerate(src):
        if c in '{[(':
            depth += 1
        elif c in '}])':
            depth -= 1
        if depth == 0 and (c == ';' or c == '}') and src[start:i + 1].strip():
            head = src[start:i + 1].strip()
            if c == '}' and head.startswith('use '):
                continue
            out.append(head)
            start = i + 1
    return out


actual = {}
for it in items(SRC):
    actual.setdefault(norm(it), []).append(it)
used, missing, counts = set(), [], {}


def expect(kind, text):
    n = norm(text)
    counts[kind] = counts.get(kind, 0) + 1
    if n in actual and n not in used:
        used.add(n)
    else:
        missing.append((kind, n))


def snake(s):
    return re.sub(r'(?<!^)([A-Z])', r'_\1', s).lower()


def camel(s):
    return ''.join(p.capitalize() for p in s.split('_'))


def body(src, pattern):
    m = re.search(pattern + r'.*?\.(?=\s*(?:\n|$))', src, re.S)
    assert m, pattern
    return m.group(0)


# ---------------------------------------------------------------- Rust types a codec of the model stands for
TYPES = {
    'bool_C': {'bool'}, 'u8_C': {'u8'}, 'u16_C': {'u16'},
    'u32_C': {'u32', 'Handle', 'Seconds', 'Milliseconds', 'SequenceNo', 'DeliveryNumber', 'TransferNumber', 'MessageFormat'},
    'u64_C': {'u64'}, 'bstr_C': {'ByteStr', 'Address'}, 'bin_C': {'Bytes', 'DeliveryTag', 'Data'},
    'symbol_C': {'Symbol', 'IetfLanguageTag'}, 'symbols_C': {'Symbols', 'IetfLanguageTags'},
    'fields_C': {'Fields', 'NodeProperties', 'Annotations'}, 'filter_set_C': {'FilterSet'},
    'vmap_C': {'Map'}, 'datetime_C': {'DateTime<Utc>', 'Timestamp'}, 'list_C': {'List'}, 'variant_C': {'Variant'},
    'string_variant_map_C': {'StringVariantMap'}, 'message_id_C': {'MessageId'},
}
ALIASES = {
    'Handle': 'u32', 'Seconds': 'u32', 'Milliseconds': 'u32', 'DeliveryTag': 'Bytes', 'SequenceNo': 'u32', 'DeliveryNumber': 'SequenceNo',
    'TransferNumber': 'SequenceNo', 'MessageFormat': 'u32', 'IetfLanguageTag': 'Symbol', 'NodeProperties': 'Fields',
    'MessageIdUlong': 'u64', 'MessageIdUuid': 'Uuid', 'MessageIdBinary': 'Bytes', 'MessageIdString': 'ByteStr',
    'Address': 'ByteStr',
}


def stands_for(codec, rust):
    return rust in TYPES.get(codec, {camel(codec[:-2])})


for a, t in ALIASES.items():
    expect('type aliases', f'pub type {a} = {t};')

# ---------------------------------------------------------------- enumerations
RES = 'Result<Self, AmqpParseError>'
RESI = 'Result<(&[u8], Self), AmqpParseError>'
BASE = {'u8_E': 'u8', 'u16_E': 'u16', 'u32_E': 'u32', 'bool_E': 'bool'}
BASED = {'u8_dec': 'u8', 'u16_dec': 'u16', 'u32_dec': 'u32', 'bool_dec': 'bool', 'symbol_dec': 'Symbol'}
for sn in re.findall(r'^Inductive (\w+) :=', ENUMS, re.M):
    E = camel(sn)
    alts = re.findall(rf'\| {E}_(\w+)', body(ENUMS, rf'Inductive {sn} :='))
    tf = body(ENUMS, rf'Definition {sn}_try_from ')
    base = BASED[re.search(rf'Definition {sn}_dec .*?enum_dec (\w+) {sn}_try_from\.', ENUMS).group(1)]
    if base == 'Symbol':
        arms = [(f'"{n}"', a) for n, a in re.findall(rf'sym_is v "(.*?)" then Ok {E}_(\w+)', tf)]
        arg, subject, ref = '&Symbol', 'v.as_str()', '&'
    elif base == 'bool':
        arms, arg, subject, ref = re.findall(rf'\| (\w+) => Ok {E}_(\w+)', tf), 'bool', 'v', ''
    else:
        arms, arg, subject, ref = re.findall(rf'v =\? (\d+) then Ok {E}_(\w+)', tf), base, 'v', ''
    name = re.search(r'EUnknownEnumOption "(\w+)"', tf)
    assert base == 'bool' or name.group(1) == E
    assert len(arms) == len(alts)
    expect('enums', f'#[derive(Clone, Copy, Debug, PartialEq)] pub enum {E} {{ {",".join(alts)} }}')
    expect('enums', f'impl {E} {{ pub fn try_from(v: {arg}) -> {RES} {{ match {subject} {{'
           + ''.join(f'{p} => Ok({E}::{a}),' for p, a in arms)
           + f'_ => Err(AmqpParseError::UnknownEnumOption("{E}")), }} }} }}')
    expect('enums', f'impl DecodeFormatted for {E} {{ fn decode_with_format(input: &[u8], fmt: u8) -> {RESI} {{ '
           f'let (input, base) = {base}::decode_with_format(input, fmt)?; Ok((input, Self::try_from({ref}base)?)) }} }}')
    sz, en = body(ENUMS, rf'Definition {sn}_size '), body(ENUMS, rf'Definition {sn}_enc ')
    if base == 'Symbol':
        s = ''.join(f'{E}::{a} => {n},' for a, n in re.findall(rf'\| {E}_(\w+) => (\d+ \+ \d+)', sz))
        e = ''.join(f'{E}::{a} => StaticSymbol("{n}").encode(buf),'
                    for a, n in re.findall(rf'\| {E}_(\w+) => static_symbol_enc \(s2b "(.*?)"\)', en))
    else:
        s = ''.join(f'{E}::{a} => {{ let v: {BASE[b]} = {n}; v.encoded_size() }}'
                    for a, b, n in re.findall(rf'\| {E}_(\w+) => e_size (\w+) (\w+)', sz))
        e = ''.join(f'{E}::{a} => {{ let v: {BASE[b]} = {n}; v.encode(buf); }}'
                    for a, b, n in re.findall(rf'\| {E}_(\w+) => e_enc (\w+) (\w+)', en))
    expect('enums', f'impl Encode for {E} {{ fn encoded_size(&self) -> usize {{ match *self {{ {s} }} }} '
           f'fn encode(&self, buf: &mut BytesMut) {{ match *self {{ {e} }} }} }}')

# ---------------------------------------------------------------- described sections that are not lists
for sn in re.findall(r'^Definition decode_(\w+)_inner [^\n]*\n  decode \(c_D', DEFS, re.M):
    D = camel(sn)
    codec = re.search(rf'Definition decode_{sn}_inner [^\n]*\n  decode \(c_D (\w+)\) md inp\.', DEFS).group(1)
    n, c2 = re.search(rf'Definition {sn}_size .*?:= (\d+) \+ e_size \(c_E (\w+)\) dr\.', DEFS).groups()
    code, c3 = re.search(rf'Definition {sn}_enc .*?:= descriptor_enc \(DUlong (\d+)\) \+\+ e_enc \(c_E (\w+)\) dr\.',
                         DEFS).groups()
    assert codec == c2 == c3
    alias = re.search(rf'^type {D} = (\w+);', SRC, re.M).group(1)
    assert stands_for(codec, alias), (D, codec, alias)
    expect('described restricted types', f'type {D} = {alias};')
    expect('described restricted types',
           f'fn decode_{sn}_inner(input: &[u8]) -> Result<(&[u8], {D}), AmqpParseError> {{ {D}::decode(input) }}')
    expect('described restricted types',
           f'fn encoded_size_{sn}_inner(dr: &{D}) -> usize {{ {n} + dr.encoded_size() }}')
    expect('described restricted types', f'fn encode_{sn}_inner(dr: &{D}, buf: &mut BytesMut) {{ '
           f'Descriptor::Ulong({code}).encode(buf); dr.encode(buf); }}')

# ---------------------------------------------------------------- lists
MODEL = DEFS + FRAMES
RUST_DEFAULT = {
    'false': 'false', 'true': 'true', 'SenderSettleMode_Mixed': 'SenderSettleMode::Mixed',
    'ReceiverSettleMode_First': 'ReceiverSettleMode::First', 'TerminusDurability_None': 'TerminusDurability::None',
    'TerminusExpiryPolicy_SessionEnd': 'TerminusExpiryPolicy::SessionEnd',
}
BY_COPY = {'bool', 'u8', 'u16', 'u32', 'u64', 'Handle', 'Seconds', 'Milliseconds', 'SequenceNo', 'DeliveryNumber',
           'TransferNumber', 'MessageFormat', 'Timestamp'} | {camel(e) for e in re.findall(r'^Inductive (\w+) :=', ENUMS, re.M)}
for sn in re.findall(r'^Definition decode_(\w+)_inner [^\n]*\n  \'\(s0', MODEL, re.M):
    S = camel(sn)
    struct = re.search(rf'pub struct {S} \{{(.*?)\}}', SRC, re.S).group(1)
    rust = dict(re.findall(r'pub (\w+): (.*),', struct))
    dec = body(MODEL, rf'Definition decode_{sn}_inner ')
    ms = re.findall(r"'\(s(\d+), (\w+)\) <- (\w+)_field (.*?) md s(\d+) ;;", dec)
    assert all(int(a) == int(e) + 1 == i + 1 for i, (a, _, _, _, e) in enumerate(ms)), S
    names = [m[1] for m in ms]
    has_body = 'TBData remainder' in dec
    ctor = re.search(r'Ok \(\w+, \(?(\w+)(.*?)\)?\)\.', dec, re.S)
    assert ctor.group(1) == 'Mk' + S and ctor.group(2).split() == names + ['body'] * has_body, (S, ctor.groups())
    pre = {'error': 'err'}.get(sn, sn)
    record = re.findall(rf'  {pre}_(\w+) :', body(MODEL, rf'(?:Record|Inductive) {sn}_t '))
    assert record == names + ['body_f'] * has_body, (S, record)
    assert list(rust) == names + ['body'] * has_body, S
    parts, codecs = [], []
    for _, n, kind, args, _ in ms:
        ty = rust[n]
        args = args.split(None, 1 if kind == 'def' else -1)
        if kind == 'req':
            assert args[0] == f'"{n}"' and stands_for(args[1], ty), (S, n, args, ty)
            codecs.append(args[1])
            parts.append(f'let {n}: {ty}; if count > 0 {{ let (in1, decoded) = {ty}::decode(input)?; {n} = decoded; '
                         f'input = in1; count -= 1; }} else {{ '
                         f'return Err(AmqpParseError::RequiredFieldOmitted("{n}")); }}')
        elif kind == 'opt':
            t = re.match(r'Option<(.*)>$', ty).group(1)
            assert stands_for(args[0], t), (S, n, args, t)
            codecs.append(f'(option_C {args[0]})')
            parts.append(f'let {n}: {ty}; if count > 0 {{ let decoded = Option::<{t}>::decode(input)?; '
                         f'input = decoded.0; {n} = decoded.1; count -= 1; }} else {{ {n} = None; }}')
        else:
            assert stands_for(args[0], ty), (S, n, args, ty)
            codecs.append(args[0])
            d = RUST_DEFAULT.get(args[1], args[1].strip('()'))
            parts.append(f'let {n}: {ty}; if count > 0 {{ let (in1, decoded) = Option::<{ty}>::decode(input)?; '
                         f'{n} = decoded.unwrap_or({d}); input = in1; count -= 1; }} else {{ {n} = {d}; }}')
    sizes = re.findall(r'e_size \(c_E (\(.*?\)|\w+)\) \((\w+) v\)', body(MODEL, rf'Definition {sn}_content_size '))
    enc = body(MODEL, rf'Definition {sn}_enc ')
    encs = re.findall(r'e_enc \(c_E (\(.*?\)|\w+)\) \((\w+) v\)', enc)
    assert sizes == encs == [(c, f'{pre}_{n}') for c, n in zip(codecs, names)], (S, sizes, encs)
    code, count = re.search(r'composite_header (\d+) (\d+)', enc).groups()
    code2, sym = re.search(rf'Definition {sn}_dec .*?composite_dec (\d+) "(.*?)"', MODEL).groups()
    assert code == code2 and int(count) == len(names), S
    expect('structs', f'#[derive(Clone, Debug, PartialEq)] pub struct {S} {{'
           + ''.join(f'pub {n}: {t},' for n, t in rust.items()) + '}')
    # the functions that read the fields
    told = re.findall(rf'MkAccessor "(\w+)" {sn}_get_(\w+)', body(ACC, rf'Definition {sn}_accessors'))
    told += re.findall(rf'Definition {sn}_body_accessor := MkAccessor "(\w+)" {sn}_get_(\w+)', ACC)
    for n, g in told:
        read = re.search(rf'Definition {sn}_get_{g} .*? := {pre}_(\w+) v\.', ACC).group(1)
        assert n == g and read in (n, n + '_f'), (S, n, g, read)
    told = [n for n, _ in told]
    fns = []
    for n in told:
        t = rust[n]
        o = re.match(r'Option<(.*)>$', t)
        t = o.group(1) if o else t
        copy = t in BY_COPY
        if o and copy:
            fns.append(f'pub fn {n}(&self) -> Option<{t}> {{ self.{n} }}')
        elif o:
            fns.append(f'pub fn {n}(&self) -> Option<&{t}> {{ self.{n}.as_ref() }}')
        elif copy:
            fns.append(f'pub fn {n}(&self) -> {t} {{ self.{n} }}')
        else:
            fns.append(f'pub fn {n}(&self) -> &{t} {{ &self.{n} }}')
    fc = '0' + ' + 1' * len(names)
    expect('structs', f'impl {S} {{ ' + ' '.join(fns)
           + f' #[allow(clippy::identity_op)] const FIELD_COUNT: usize = {fc}; }}')
    tail = ''
    if has_body:
        tail = ('let body = if remainder.is_empty() { None } else { let b = Bytes::from(remainder); '
                'remainder = &[]; Some(b.into()) };')
    expect('structs', '#[allow(unused_mut)] '
           f'fn decode_{sn}_inner(input: &[u8]) -> Result<(&[u8], {S}), AmqpParseError> {{ '
           'let (input, format) = decode_format_code(input)?; '
           'let (input, header) = decode_list_header(input, format)?; let size = header.size as usize; '
           'decode_check_len!(input, size); '
           + ('let (mut input, mut remainder) = input.split_at(size); let mut count = header.count; ' if parts
              else 'let mut remainder = &input[size..];')
           + ' '.join(parts) + tail
           + f' Ok((remainder, {S} {{ ' + ','.join(rust) + ' })) }')
    cs = 'let content_size = 0' + ''.join(f' + list.{n}.encoded_size()' for n in names) + ';'
    bsz = ' + list.body.as_ref().map(|b| b.len()).unwrap_or(0)' if has_body else ''
    expect('structs', f'fn encoded_size_{sn}_inner(list: &{S}) -> usize {{ #[allow(clippy::identity_op)] {cs} '
           f'(if content_size + 1 > u8::MAX as usize {{ 12 }} else {{ 6 }}) + content_size{bsz} }}')
    ben = 'if let Some(ref body) = list.body { body.encode(buf) }' if has_body else ''
    expect('structs', f'fn encode_{sn}_inner(list: &{S}, buf: &mut BytesMut) {{ Descriptor::Ulong({code}).encode(buf); '
           f'#[allow(clippy::identity_op)] {cs} if content_size + 1 > u8::MAX as usize {{ '
           'buf.put_u8(codec::FORMATCODE_LIST32); buf.put_u32_be((content_size + 4) as u32); '
           f'buf.put_u32_be({S}::FIELD_COUNT as u32); }} else {{ buf.put_u8(codec::FORMATCODE_LIST8); '
           f'buf.put_u8((content_size + 1) as u8); buf.put_u8({S}::FIELD_COUNT as u8); }} '
           + ''.join(f'list.{n}.encode(buf);' for n in names) + ben + '}')
    expect('structs', f'impl DecodeFormatted for {S} {{ fn decode_with_format(input: &[u8], fmt: u8) -> {RESI} {{ '
           'validate_code!(fmt, codec::FORMATCODE_DESCRIBED); let (input, descriptor) = Descriptor::decode(input)?; '
           f'let is_match = match descriptor {{ Descriptor::Ulong(val) => val == {code}, '
           f'Descriptor::Symbol(ref sym) => sym.as_bytes() == b"{sym}", }}; if !is_match {{ '
           f'Err(AmqpParseError::InvalidDescriptor(descriptor)) }} else {{ decode_{sn}_inner(input) }} }} }}')
    expect('structs', f'impl Encode for {S} {{ fn encoded_size(&self) -> usize {{ encoded_size_{sn}_inner(self) }} '
           f'fn encode(&self, buf: &mut BytesMut) {{ encode_{sn}_inner(self, buf) }} }}')

# ---------------------------------------------------------------- unions and Frame
for sn in re.findall(r'^Definition (\w+)_select ', MODEL, re.M):
    U = camel(sn)
    alts = re.findall(r'\| [A-Z]+_(\w+)( \(v : .*?\))?', body(MODEL, rf'Inductive {sn} :='))
    sel = body(MODEL, rf'Definition {sn}_select ')
    arm = r' then map_res [A-Z]+_(\w+) \(decode_(\w+)_inner md inp\)'
    ul, sy = re.findall(r'c =\? (\d+)' + arm, sel), re.findall(r'sym_is a "(.*?)"' + arm, sel)
    call = 'decode_{1}_inner(input).map(|(i, r)| (i, {2}::{0}(r))),'
    arms = ''.join(f'Descriptor::Ulong({c}) => ' + call.format(a, f, U) for c, a, f in ul)
    arms += ''.join(f'Descriptor::Symbol(ref a) if a.as_str() == "{c}" => ' + call.format(a, f, U) for c, a, f in sy)
    arms += '_ => Err(AmqpParseError::InvalidDescriptor(descriptor)),'
    sz = re.findall(r'\| [A-Z]+_(\w+) v => (\w+)_size v', body(MODEL, rf'Definition {sn}_size '))
    en = re.findall(r'\| [A-Z]+_(\w+) v => (\w+)_enc v', body(MODEL, rf'Definition {sn}_enc '))
    with_empty = [a for a, v in alts if not v]
    derive = 'Clone, Debug, PartialEq, From' if with_empty else 'Clone, Debug, PartialEq'
    expect('unions', f'#[derive({derive})] pub enum {U} {{ ' + ','.join(a + (f'({a})' if v else '') for a, v in alts) + '}')
    core = ('validate_code!(fmt, codec::FORMATCODE_DESCRIBED); let (input, descriptor) = Descriptor::decode(input)?; '
            f'match descriptor {{ {arms} }}')
    s = ''.join(f'{U}::{a}(ref v) => encoded_size_{f}_inner(v),' for a, f in sz)
    e = ''.join(f'{U}::{a}(ref v) => encode_{f}_inner(v, buf),' for a, f in en)
    if with_empty:
        assert with_empty == ['Empty']
        s += f'{U}::Empty => 0,'
        e += f'{U}::Empty => (),'
        expect('unions', f'impl {U} {{ pub fn name(&self) -> &\'static str {{ match self {{ '
               + ''.join(f'{U}::{a}(_) => "{a}",' if v else f'{U}::{a} => "{a}",' for a, v in alts) + '} } }')
        expect('unions', f'impl Decode for {U} {{ fn decode(input: &[u8]) -> {RESI} {{ if input.is_empty() {{ '
               f'Ok((input, {U}::Empty)) }} else {{ let (input, fmt) = decode_format_code(input)?; {core} }} }} }}')
    else:
        expect('unions', f'impl DecodeFormatted for {U} {{ fn decode_with_format(input: &[u8], fmt: u8) -> {RESI} {{ '
               f'{core} }} }}')
    expect('unions', f'impl Encode for {U} {{ fn encoded_size(&self) -> usize {{ match *self {{ {s} }} }} '
           f'fn encode(&self, buf: &mut BytesMut) {{ match *self {{ {e} }} }} }}')

# ---------------------------------------------------------------- specification.json
spec = theory('SpecJson').split('Definition specification : json :=')[1]
tokens = re.findall(r'"(?:[^"]|"")*"|\w+|\S', spec)
pos = 0


def take(*want):
    global pos
    t = tokens[pos]
    assert not want or t in want, (t, want)
    pos += 1
    return t


def sequence(one):
    out = []
    take('[')
    while tokens[pos] != ']':
        out.append(one())
        if tokens[pos] == ';':
            take(';')
    take(']')
    return out


def entry():
    take('(')
    k = take()[1:-1].replace('""', '"')
    take(',')
    v = value()
    take(')')
    return k, v


def value():
    t = take('S', 'O', 'JArr', 'JNull', 'JBool', 'JInt')
    if t == 'S':
        return take()[1:-1].replace('""', '"')
    if t == 'O':
        return {'object': sequence(entry)}
    if t == 'JArr':
        return sequence(value)
    if t == 'JNull':
        return None
    return {'true': True, 'false': False}[take()] if t == 'JBool' else int(take())


mine = value()
theirs = json.load(open(f'{repo}/codegen/specification.json'), object_pairs_hook=lambda l: {'object': l})
theirs = json.loads(json.dumps(theirs))
counts['specification.json'] = 1
if json.loads(json.dumps(mine)) != theirs:
    missing.append(('specification.json', 'specification'))

# ---------------------------------------------------------------- format codes
codes = re.findall(r'Definition FC_(\w+) := (0x\w+)\.', theory('Encode'))
counts['format codes'] = len(codes)
consts = re.findall(r'^pub const FORMATCODE_(\w+): u8 = (0x\w+);', open(f'{repo}/src/codec/mod.rs').read(), re.M)
if codes != consts:
    missing.append(('format codes', str(set(codes) ^ set(consts))))

# ---------------------------------------------------------------- the two files kept as texts
texts = theory('RepoText')
for name, path in (('template_text', 'codegen/definitions.rs'), ('checked_in_text', 'src/protocol/definitions.rs')):
    kept = []
    for part in re.findall(rf'^Definition {name}_\d+ : list string := \[\n(.*?)\]\.$', texts, re.M | re.S):
        kept += [l[1:-1].replace('""', '"') for l in part.split(';\n"')[:1]]
        kept += [l[:-1].replace('""', '"') for l in part.split(';\n"')[1:]]
    counts[f'{name} (lines)'] = len(kept)
    if '\n'.join(kept) + '\n' != open(f'{repo}/{path}').read():
        missing.append((f'{name} (lines)', path))

for kind, n in counts.items():
    bad = sum(1 for k, _ in missing if k == kind)
    print(f'{kind}: {n} expected, {n - bad} found')
rest = [t for n, ts in actual.items() if n not in used for t in ts]
print(f'definitions.rs: {sum(map(len, actual.values()))} items, {len(rest)} without a counterpart in the model:')
for t in rest:
    print('   ', re.sub(r'\s+', ' ', t)[:110])
for k, n in missing:
    print('NOT FOUND', k, n[:2000])
print('OK' if not missing else 'DIFFERENT')
sys.exit(bool(missing))
