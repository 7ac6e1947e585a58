-Q theories Verif
theories/Base.v
theories/Lists.v
theories/Prime_Model.v
theories/Prime_Proofs.v
theories/Prime_Props.v
theories/Maglev_Model.v
theories/Config_Model.v
theories/Config_Spec.v
theories/Maglev_Spec.v
theories/Maglev_Proofs.v
theories/MaglevInit_Proofs.v
theories/Config_Proofs.v
theories/MaglevThms_Proofs.v
theories/Maglev_Props.v
theories/IpKey_Model.v
theories/IpKey_Spec.v
theories/IpKey_Proofs.v
theories/IpKey2_Proofs.v
theories/IpKey3_Proofs.v
theories/IpKey4_Proofs.v
theories/IpKey_Props.v
theories/Conntrack_Model.v
theories/Conntrack_Spec.v
theories/Conntrack_Proofs.v
theories/Conntrack2_Proofs.v
theories/ItemPool_Model.v
theories/ItemPool_Spec.v
theories/ItemPool_Proofs.v
theories/Conntrack_Props.v
theories/Cstr_Model.v
theories/Util_Model.v
theories/Util_Spec.v
theories/Util_Proofs.v
theories/Util_Props.v
theories/Rangeset_Model.v
theories/Rangeset_Spec.v
theories/Rangeset_Proofs.v
theories/Rangeset2_Proofs.v
theories/Rangeset_Props.v
theories/Remote_Model.v
theories/Remote_Spec.v
theories/Remote_Proofs.v
theories/Remote_Props.v
theories/Match_Model.v
theories/Match_Spec.v
theories/Match_Proofs.v
theories/Match_Props.v
theories/Flow_Model.v
theories/Flow_Spec.v
theories/Cidr_Proofs.v
theories/Flow_Proofs.v
theories/Flow2_Proofs.v
theories/Flow3_Proofs.v
theories/Flow_Props.v
theories/Reasm_Model.v
theories/Reasm_Spec.v
theories/Reasm_Proofs.v
theories/Reasm_Props.v
theories/Frag_Model.v
theories/Frag_Spec.v
theories/Frag_Proofs.v
theories/Frag2_Proofs.v
theories/Frag3_Proofs.v
theories/Frag_Props.v
theories/FragEnd_Model.v
theories/FragEnd_Spec.v
theories/FragEnd_Proofs.v
theories/FragEnd_Props.v
theories/FlowLb_Model.v
theories/FlowLb_Spec.v
theories/FlowLb_Proofs.v
theories/Requests_Spec.v
theories/FlowLb2_Proofs.v
theories/FlowLb3_Proofs.v
theories/FlowLb4_Proofs.v
theories/FlowLb5_Proofs.v
theories/FlowLb_Props.v
theories/Nfq_Model.v
theories/Nfq_Spec.v
theories/Nfq_Proofs.v
theories/Nfq2_Proofs.v
theories/Nfq_Props.v
theories/FragVals_Proofs.v
theories/Lb_Model.v
theories/Lb_Spec.v
theories/Lb_Proofs.v
theories/Lb2_Proofs.v
theories/Lb3_Proofs.v
theories/LbEx_Proofs.v
theories/Lb_Props.v
theories/Fwmark_Model.v
theories/Fwmark_Spec.v
theories/Fwmark_Proofs.v
theories/Fwmark2_Proofs.v
theories/Fwmark_Props.v
theories/Steer_Spec.v
theories/Steer_Proofs.v
theories/Steer2_Proofs.v
theories/Steer3_Proofs.v
theories/SteerEx_Proofs.v
theories/Steer_Props.v
theories/Requests_Proofs.v
theories/Requests2_Proofs.v
theories/Requests_Props.v
theories/Print_Model.v
theories/Print_Spec.v
theories/Print_Proofs.v
theories/Print2_Proofs.v
theories/Print3_Proofs.v
theories/Print4_Proofs.v
theories/Print5_Proofs.v
theories/Print_Props.v
theories/Trace_Model.v
theories/Trace_Spec.v
theories/Trace_Proofs.v
theories/Trace2_Proofs.v
theories/Trace3_Proofs.v
theories/Trace_Props.v
theories/Xlb_Model.v
theories/Xlb_Spec.v
theories/Xlb_Proofs.v
theories/Xlb_Props.v
theories/Opt_Model.v
theories/Opt_Spec.v
theories/Opt_Proofs.v
theories/FlowSet_Spec.v
theories/Opt2_Proofs.v
theories/Opt_Props.v
theories/Encap_Spec.v
theories/Encap_Proofs.v
theories/Encap_Props.v
theories/Shm_Model.v
theories/Shm_Spec.v
theories/Shm_Proofs.v
theories/Shm2_Proofs.v
theories/Shm3_Proofs.v
theories/Shm4_Proofs.v
theories/Shm5_Proofs.v
theories/Shm_Props.v
theories/Stats_Model.v
theories/Stats_Spec.v
theories/Stats_Proofs.v
theories/Stats2_Proofs.v
theories/Stats3_Proofs.v
theories/Start_Model.v
theories/Start_Spec.v
theories/Start_Proofs.v
theories/Start2_Proofs.v
theories/Start3_Proofs.v
theories/Start4_Proofs.v
theories/Stats4_Proofs.v
theories/Stats_Props.v
theories/Start_Props.v
theories/Lines_Model.v
theories/Lines_Spec.v
theories/Lines_Proofs.v
theories/Lines2_Proofs.v
theories/Lines3_Proofs.v
theories/Lines_Props.v
theories/Log_Model.v
theories/Log_Spec.v
theories/Log_Proofs.v
theories/Log2_Proofs.v
theories/Log3_Proofs.v
theories/Log4_Proofs.v
theories/Log5_Proofs.v
theories/Log6_Proofs.v
theories/Log_Props.v
theories/Client_Model.v
theories/Client_Spec.v
theories/Client_Proofs.v
theories/Client2_Proofs.v
theories/Client_Props.v
theories/Host_Model.v
theories/Wrap_Proofs.v
theories/Host_Spec.v
theories/Host_Proofs.v
theories/Host2_Proofs.v
theories/Host3_Proofs.v
theories/Host4_Proofs.v
theories/Host5_Proofs.v
theories/Host6_Proofs.v
theories/Host_Props.v
theories/Frags_Spec.v
theories/Frags_Proofs.v
theories/Frags2_Proofs.v
theories/Frags3_Proofs.v
theories/Frags_Props.v
theories/Asm_Model.v
theories/Asm_Spec.v
theories/Asm_Proofs.v
theories/Asm2_Proofs.v
theories/Asm3_Proofs.v
theories/Asm4_Proofs.v
theories/Asm5_Proofs.v
theories/Asm_Props.v
theories/Ctl_Model.v
theories/Ctl_Spec.v
theories/Ctl_Proofs.v
theories/Ctl2_Proofs.v
theories/Ctl_Props.v
theories/Addr_Model.v
theories/Addr_Spec.v
theories/Addr_Proofs.v
theories/Addr2_Proofs.v
theories/Addr_Props.v
theories/Ipu_Model.v
theories/Ipu_Spec.v
theories/Ipu_Proofs.v
theories/Ipu2_Proofs.v
theories/Ipu3_Proofs.v
theories/Ipu_Props.v
theories/Setup_Model.v
theories/Setup_Spec.v
theories/Setup_Proofs.v
theories/Setup2_Proofs.v
theories/Setup3_Proofs.v
theories/Setup4_Proofs.v
theories/Setup_Props.v
theories/Mem_Model.v
theories/Mem_Spec.v
theories/Mem_Proofs.v
theories/Mem2_Proofs.v
theories/Mem3_Proofs.v
theories/Mem_Props.v
theories/Tun_Model.v
theories/Tun_Spec.v
theories/Tun_Proofs.v
theories/Tun2_Proofs.v
theories/Tun3_Proofs.v
theories/Tun_Props.v
theories/Shown_Model.v
theories/Shown_Spec.v
theories/Shown_Proofs.v
theories/Shown2_Proofs.v
theories/Shown3_Proofs.v
theories/Shown_Props.v
theories/Tier_Model.v
theories/Tier_Spec.v
theories/Tier_Proofs.v
theories/Tier2_Proofs.v
theories/Tier3_Proofs.v
theories/Tier4_Proofs.v
theories/Tier5_Proofs.v
theories/Tier_Props.v
theories/Soon_Spec.v
theories/Soon_Proofs.v
theories/Soon_Props.v
theories/Locks_Model.v
theories/Locks_Spec.v
theories/Locks_Proofs.v
theories/Locks_Props.v
theories/Late_Model.v
theories/Late_Spec.v
theories/Late_Proofs.v
theories/Late2_Proofs.v
theories/Late_Props.v
theories/Late3_Proofs.v
theories/Late4_Proofs.v
theories/Late5_Proofs.v
theories/Late6_Proofs.v
theories/OptDoc_Spec.v
theories/OptDoc_Proofs.v
theories/Late7_Proofs.v
theories/Ipu4_Proofs.v
