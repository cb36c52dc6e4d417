#!/usr/bin/env python3
"""Writes rocq/theories/MsgSites.v: the calls of stdcxx::format and of the loggers in the code, with their texts (C80)."""
import glob
import re


def parse_args(s, i):
    """The arguments of the call whose opening parenthesis is before position i."""
    depth, args, cur = 0, [], ''
    while True:
        c = s[i]
        if c in '"\'':
            j = i + 1
            while s[j] != c:
                j += 2 if s[j] == '\\' else 1
            cur += s[i:j + 1]
            i = j + 1
            continue
        if c in '([{':
            depth += 1
        if c in ')]}':
            if depth == 0:
                return args + ([cur.strip()] if cur.strip() else [])
            depth -= 1
        m = re.match(r'<[\w:\s,<>&\*]*>\s*\(', s[i:]) if c == '<' else None
        if m:
            cur += m.group(0)[:-1]
            i += len(m.group(0)) - 1
            continue
        if c == ',' and depth == 0:
            args.append(cur.strip())
            cur = ''
        else:
            cur += c
        i += 1


def literal(a):
    return ''.join(re.findall(r'"((?:[^"\\]|\\.)*)"', a)).replace('\\"', '"').replace('\\\\', '\\')


def coq(s):
    return '"' + s.replace('"', '""') + '"'


def entry(f, line, text, n):
    return '  mkSite %s %d %s %d' % (coq(f), line, coq(text), n)


LEVELS = {'trace': 'LvTrace', 'debug': 'LvDebug', 'info': 'LvInfo', 'warn': 'LvWarn', 'error': 'LvError'}
formats, logs = [], []
for d in ('src', 'include', 'extensions'):
    files = sorted(glob.glob('/repo/' + d + '/**/*.*pp', recursive=True) + glob.glob('/repo/' + d + '/**/*.hxx', recursive=True))
    for f in files:
        if '/test' in f or 'stdcxx/format.h' in f or 'logging/Logger.h' in f:
            continue
        s = open(f).read()
        name = f.replace('/repo/', '')
        for m in re.finditer(r'\bformat\(|logger\.(debug|info|warn|error|trace)\(', s):
            args = parse_args(s, m.end())
            line = s.count('\n', 0, m.start()) + 1
            if m.group(1) is None:
                formats.append(entry(name, line, literal(args[0]), len(args) - 1))
            elif args[0].startswith('"'):
                logs.append((LEVELS[m.group(1)], 'Direct', entry(name, line, literal(args[0]), len(args) - 1)))
            elif args[0].startswith('stdcxx::format('):
                inner = parse_args(args[0], len('stdcxx::format('))
                logs.append((LEVELS[m.group(1)], 'Twice', entry(name, line, literal(inner[0]), len(inner) - 1)))
# The three calls whose message is a variable or the result of a function: the format calls that make it.
logs.append(('LvWarn', 'Twice', entry('src/iidm/ValidationUtils.cpp', 28, 'bad target voltage %1%', 1)))
logs.append(('LvError', 'Twice', entry('src/iidm/converter/xml/IidmXmlUtil.cpp', 50, '%1% is %2% for IIDM-XML version %3%. %4%%5%', 5)))
logs.append(('LvWarn', 'Twice', entry('src/iidm/converter/xml/NetworkXml.cpp', 57, 'Extensions %1% not found!', 1)))
out = ['(** The calls of stdcxx::format and of the loggers in /repo, with their texts and the number of their arguments; written by',
       '    tools/gen_msgsites.py from the sources.  The other texts logged at ValidationUtils.cpp:28 are literals without directive. *)',
       'From Verif Require Export Messages.', '',
       '(** stdcxx::format("...", ...): file, line, text, number of arguments. *)',
       'Definition format_sites : list site := [', ';\n'.join(formats), '].', '',
       '(** logger.level("...", ...) and logger.level(stdcxx::format("...", ...)). *)',
       'Definition log_sites : list (level * passing * site) := [',
       ';\n'.join('  (%s, %s, %s)' % (l, k, e.strip()) for l, k, e in logs), '].', '']
open('/verif/rocq/theories/MsgSites.v', 'w').write('\n'.join(out))
print(len(formats), len(logs))
