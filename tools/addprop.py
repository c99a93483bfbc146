"""helper: append p(...) calls before the __main__ block of gen_properties.py"""
import sys
src='/verif/tools/gen_properties.py'
s=open(src).read()
new=sys.stdin.read()
i=s.index("if __name__=='__main__'")
open(src,'w').write(s[:i]+new+s[i:])
