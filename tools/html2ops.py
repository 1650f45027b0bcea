"""Translate HTML to the list of handler calls of the model (Coq syntax).
Uses only the standard library's html.parser, which is the tokenizer the
library itself relies on."""
import sys
from html.parser import HTMLParser

def cstr(s):
    if all(32 <= ord(c) < 127 for c in s):
        return '(lit "%s")' % s.replace('"', '""')
    return '[' + ';'.join('%d%%N' % ord(c) for c in s) + ']'

class P(HTMLParser):
    def __init__(self):
        super().__init__(convert_charrefs=True)
        self.ops = []
    def handle_starttag(self, tag, attrs):
        a = ';'.join('(%s, %s)' % (cstr(k), 'None' if v is None else 'Some ' + cstr(v)) for k, v in attrs)
        self.ops.append('OStart %s [%s]' % (cstr(tag), a))
    def handle_endtag(self, tag):
        self.ops.append('OEnd %s' % cstr(tag))
    def handle_data(self, d):
        self.ops.append('OData %s' % cstr(d))

def ops(html):
    p = P(); p.feed(html); p.close()
    return '[' + '; '.join(p.ops) + ']'

if __name__ == '__main__':
    print(ops(sys.stdin.read()))
