# usage: addnotes.py < lines of the form "CNN[ partial|not_applicable]: note"
import sys, re, json
path = '/verif/tools/notes.json'
n = json.load(open(path))
for line in sys.stdin:
    m = re.match(r'(C\d+)(?: (partial|not_applicable|proved))?: (.*)', line.rstrip('\n'))
    if not m: continue
    n[m.group(1)] = {'note': m.group(3)}
    if m.group(2) and m.group(2) != 'proved': n[m.group(1)]['status'] = m.group(2)
json.dump(dict(sorted(n.items())), open(path, 'w'), indent=1)
