#!/usr/bin/env python3
"""Generates rocq/theories/Spec/EventNames.v: every variant of the enumerations of structured events with its name,
read from the enum declarations in /repo/src/events (not from any printing code)."""
import re
ROOT='/repo/src/events/'
def variants(f,enum):
    s=open(ROOT+f).read()
    m=re.search(r'pub enum '+enum+r'\s*\{',s); i=m.end(); d=1; j=i
    while d:
        if s[j]=='{': d+=1
        if s[j]=='}': d-=1
        j+=1
    b=re.sub(r'//[^\n]*','',s[i:j-1]); b=re.sub(r'#\[[^\]]*\]','',b)
    return [x.strip() for x in b.split(',') if x.strip()]
T=[('net_protocol','NP_','protocol.rs','NetworkProtocol'),('web_category','WC_','webproxy.rs','WebProxyRuleCategory'),('intrusion_category','IC_','intrusion.rs','IntrusionCategory'),
   ('fw_outcome','FO_','firewall.rs','FirewallOutcome'),('dns_type','DT_','dns.rs','DnsRecordType'),('dhcp_type','DR_','dhcp.rs','DhcpRecordType'),
   ('web_outcome','WO_','webproxy.rs','WebProxyOutcome'),('intrusion_outcome','IO_','intrusion.rs','IntrusionOutcome'),('login_outcome','LO_','auth.rs','LoginOutcome'),
   ('http_method','HM_','common.rs','HttpMethod'),('web_protocol','WP_','common.rs','WebProtocol')]
o='''(** The texts that stand for the variants of the enumerations of structured events: each variant is shown under its own
    name.  Generated by tools/gen_event_names.py from the enum declarations in src/events (not from any printing code);
    variants that carry a text are not listed. *)
From Coq Require Import String List.
From Verif Require Import Model.EventEnums Model.Events.
Import ListNotations.
Local Open Scope string_scope.

'''
for ty,pre,f,enum in T:
    vs=[v for v in variants(f,enum) if '(' not in v]
    pay=[v for v in variants(f,enum) if '(' in v]
    o+=f'(** {f} [{enum}]'+(f'; with a text: {", ".join(p.split("(")[0] for p in pay)}' if pay else '')+' *)\n'
    o+=f'Definition {ty}_names : list ({ty} * string) := [\n'+';\n'.join('  '+'; '.join(f'({pre}{v}, "{v}")' for v in vs[k:k+5]) for k in range(0,len(vs),5))+'].\n\n'
open('/verif/rocq/theories/Spec/EventNames.v','w').write(o)
