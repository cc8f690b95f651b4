"""Parse the generated trie tables out of /repo/<pkg>/trie.go (read as text)."""
import re
def parse(pkg, repo='/repo'):
    src = open(f'{repo}/{pkg}/trie.go').read()
    props = re.search(r'const \(\n(.*?)\n\)', src, re.S).group(1)
    names = [l.strip().split()[0] for l in props.split('\n')]
    def table(name):
        m = re.search(r'var %s = \[(\d+)\]property\{\n(.*?)\n\}' % name, src, re.S)
        size = int(m.group(1)); blocks = []; cur = None
        for line in m.group(2).split('\n'):
            line = line.strip()
            mm = re.match(r'// Block (0x[0-9a-f]+), offset (0x[0-9a-f]+)', line)
            if mm:
                cur = (int(mm.group(1),16), int(mm.group(2),16), []); blocks.append(cur); continue
            for k, v in re.findall(r'(0x[0-9a-f]+): *(0x[0-9a-f]+),', line):
                cur[2].append((int(k,16), int(v,16)))
        return size, blocks
    return names, table(pkg+'Values'), table(pkg+'Index')
def lookup_cp(values, index, cp):
    b = chr(cp).encode('utf-8', 'surrogatepass')
    if len(b) == 1: return values.get(b[0], 0)
    i = index.get(b[0], 0)
    for c in b[1:-1]:
        i = index.get((i << 6) + c, 0)
    return values.get((i << 6) + b[-1], 0)
def flat(t):
    return {k: v for _, _, es in t[1] for k, v in es}
