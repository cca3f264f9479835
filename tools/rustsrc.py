"""Small helpers to read the regular parts of the Rust sources (structs, Default impls, enums, match arms)."""
import re

class Src:
    def __init__(self, path):
        self.path = path
        raw = open(path).read()
        k = raw.find('#[cfg(test)]\nmod ')
        if k >= 0:
            raw = raw[:k]
        self.text = strip_comments(raw)

    def line(self, pos):
        return self.text.count('\n', 0, pos) + 1

    def block(self, regex, start=0):
        """(start, end, body) of the brace block following the first match of regex."""
        m = re.compile(regex).search(self.text, start)
        if not m:
            return None
        i = self.text.index('{', m.end() - 1 if self.text[m.end() - 1] == '{' else m.end())
        j = match_brace(self.text, i)
        return m.start(), j, self.text[i + 1:j], i + 1

    def lines(self, a, b):
        return f'{self.line(a)}-{self.line(b)}'

def strip_comments(s):
    out = []
    i = 0
    n = len(s)
    while i < n:
        c = s[i]
        if c == '"':
            j = i + 1
            while s[j] != '"':
                j += 2 if s[j] == '\\' else 1
            out.append(s[i:j + 1])
            i = j + 1
        elif s.startswith('//', i):
            j = s.find('\n', i)
            j = n if j < 0 else j
            out.append(' ' * (j - i))
            i = j
        elif s.startswith('/*', i):
            j = s.index('*/', i) + 2
            out.append(re.sub(r'[^\n]', ' ', s[i:j]))
            i = j
        elif c == "'" and i + 2 < n and s[i + 2] == "'":
            out.append(s[i:i + 3])
            i += 3
        else:
            out.append(c)
            i += 1
    return ''.join(out)

def match_brace(s, i):
    pairs = {'{': '}', '(': ')', '[': ']'}
    o = s[i]
    c = pairs[o]
    d = 0
    j = i
    while True:
        ch = s[j]
        if ch == '"':
            j += 1
            while s[j] != '"':
                j += 2 if s[j] == '\\' else 1
        elif ch == o:
            d += 1
        elif ch == c:
            d -= 1
            if d == 0:
                return j
        j += 1

def split_top(s, sep=','):
    """Split at separators outside brackets and strings."""
    out = []
    d = 0
    cur = ''
    i = 0
    while i < len(s):
        ch = s[i]
        if ch == '"':
            j = i + 1
            while s[j] != '"':
                j += 2 if s[j] == '\\' else 1
            cur += s[i:j + 1]
            i = j + 1
            continue
        if ch in '([{':
            d += 1
        if ch in ')]}':
            d -= 1
        if ch == '<' and re.match(r'[A-Za-z_:]', s[i - 1:i] or ' '):
            d += 1
        if ch == '>' and s[i - 1] not in '-=' and d > 0:
            d -= 1
        if ch == sep and d == 0:
            out.append(cur)
            cur = ''
        else:
            cur += ch
        i += 1
    if cur.strip():
        out.append(cur)
    return [x.strip() for x in out]

def squash(s):
    return ' '.join(s.split())

def struct_fields(src, name):
    a, b, body, _ = src.block(r'pub struct %s\s*\{' % name)
    fs = []
    for f in split_top(body):
        f = squash(re.sub(r'#\[[^\]]*\]', '', f))
        m = re.match(r'(?:pub(?:\([a-z]+\))? )?([a-z_0-9]+)\s*:\s*(.*)$', f)
        assert m, f
        fs.append((m.group(1), m.group(2)))
    return fs, src.lines(a, b)

def match_arms(body):
    """[(pattern, rhs)] of the inside of a match."""
    arms = []
    i = 0
    while True:
        m = re.compile(r'\s*').match(body, i)
        i = m.end()
        if i >= len(body):
            break
        k = body.index('=>', i)
        pat = squash(body[i:k])
        j = k + 2
        while body[j] in ' \n':
            j += 1
        if body[j] == '{':
            e = match_brace(body, j)
            rhs = body[j + 1:e]
            i = e + 1
            if i < len(body) and body[i:i + 1] == ',':
                i += 1
        else:
            d = 0
            e = j
            while e < len(body):
                ch = body[e]
                if ch == '"':
                    e += 1
                    while body[e] != '"':
                        e += 2 if body[e] == '\\' else 1
                elif ch in '([{':
                    d += 1
                elif ch in ')]}':
                    d -= 1
                elif ch == ',' and d == 0:
                    break
                e += 1
            rhs = body[j:e]
            i = e + 1
        arms.append((pat, squash(rhs), (k)))
    return arms
