#!/usr/bin/env python3
"""st.py Cxx status note : set the manifest status of a property."""
import json,sys
p='/verif/tools/status.json'
d=json.load(open(p))
d[sys.argv[1]]={'status':sys.argv[2],'note':sys.argv[3]}
json.dump(d,open(p,'w'),indent=1)
