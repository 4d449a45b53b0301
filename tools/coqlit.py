"""Rendering of Python values as Gallina literals (shared by the generators)."""

def s(x):
    """A str as a Gallina literal of type str (list N)."""
    # characters that are awkward inside a Gallina string literal (controls,
    # surrogates, combining marks at the start, bidi controls) force the numeric form
    if x == '':
        return '[]'
    import unicodedata
    bad = any(ord(c) < 32 or 0x7f <= ord(c) < 0xa0 or 0xd800 <= ord(c) < 0xe000
              or unicodedata.category(c) in ('Cf', 'Co', 'Cn') for c in x)
    lead = unicodedata.category(x[0]).startswith('M')
    if bad or lead:
        body = '; '.join('0x%X' % ord(c) for c in x)
        return '[%s]%%N' % body
    return '"' + x.replace('"', '""') + '"%u'

def comment(x):
    return x.replace('(*', '( *').replace('*)', '* )').replace('"', "'")

def lst(xs, per=8, ind='    '):
    items = [s(x) for x in xs]
    if not items:
        return '([] : list str)'
    lines = ['; '.join(items[i:i + per]) for i in range(0, len(items), per)]
    return '[' + (';\n' + ind).join(lines) + ']'
