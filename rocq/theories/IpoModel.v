(* Model of macros of include/network.h (type of service, IP options, ethernet lengths, routing flags)
   and of the limits of headers/common/stdint.h. *)
From Verif Require Import Base.

(* include/network.h:95-96, 102-103, 118-119, 130-131, 138-139, 149-155 *)
Definition IPTOS_ECN (x : Z) : Z := Z.land x 3.
Definition IPTOS_DSCP (x : Z) : Z := Z.land x 252. (* include/network.h:103 *)
Definition IPTOS_CLASS (x : Z) : Z := Z.land x 224. (* include/network.h:119 *)
Definition IPTOS_TOS (x : Z) : Z := Z.land x 30. (* include/network.h:131 *)
Definition IPTOS_PREC (x : Z) : Z := Z.land x 224. (* include/network.h:139 *)
Definition IPOPT_COPIED (o : Z) : Z := Z.land o 128. (* include/network.h:153 *)
Definition IPOPT_CLASS (o : Z) : Z := Z.land o 96. (* include/network.h:154 *)
Definition IPOPT_NUMBER (o : Z) : Z := Z.land o 31. (* include/network.h:155 *)
(* include/network.h:104-116: AF11 AF12 AF13, AF21 ..., AF43; EF *)
Definition DSCP_AF : list (list Z) := [[40; 48; 56]; [72; 80; 88]; [104; 112; 120]; [136; 144; 152]].
Definition DSCP_EF : Z := 184. (* include/network.h:104-116 *)
(* include/network.h:120-127 *)
Definition CLASS_CS : list Z := [0; 32; 64; 96; 128; 160; 192; 224].
(* include/network.h:132-135: LOWDELAY, THROUGHPUT, RELIABILITY, LOWCOST *)
Definition TOS_BITS : list Z := [16; 8; 4; 2].
(* include/network.h:140-147: NETCONTROL down to ROUTINE *)
Definition PREC : list Z := [224; 192; 160; 128; 96; 64; 32; 0].
(* include/network.h:157-161: CONTROL, RESERVED1, DEBMEAS, RESERVED2 *)
Definition OPT_CLASSES : list Z := [0; 32; 64; 96].
(* include/network.h:163-180: EOL NOP RR TS SECURITY LSRR SATID SSRR RA *)
Definition OPTIONS : list Z := [0; 1; 7; 68; 130; 131; 136; 137; 148].

(* include/network.h:265-268, 504-511 *)
Definition ETH_HLEN := 14.
Definition ETH_ZLEN := 60. (* include/network.h:266 *)
Definition ETH_DATA_LEN := 1500. (* include/network.h:267 *)
Definition ETH_FRAME_LEN := 1514. (* include/network.h:268 *)
Definition ETHER_CRC_LEN := 4. (* include/network.h:505 *)
Definition ETHER_MIN_LEN := ETH_ZLEN + ETHER_CRC_LEN. (* include/network.h:507 *)
Definition ETHER_MAX_LEN := ETH_FRAME_LEN + ETHER_CRC_LEN. (* include/network.h:508 *)
(* include/network.h:510 *)
Definition ETHER_IS_VALID_LEN (n : Z) : bool := (ETHER_MIN_LEN <=? n) && (n <=? ETHER_MAX_LEN).
(* include/network.h:517 *)
Definition ETHERMIN := ETHER_MIN_LEN - ETH_HLEN - ETHER_CRC_LEN.

(* include/network.h:681-693; the flags are an unsigned int *)
Definition RTF_LOCAL := 2147483648.
Definition RTF_INTERFACE := 1073741824. (* include/network.h:682 *)
Definition RTF_MULTICAST := 536870912. (* include/network.h:683 *)
Definition RTF_BROADCAST := 268435456. (* include/network.h:684 *)
Definition RTF_NAT := 134217728. (* include/network.h:685 *)
Definition RTF_ADDRCLASSMASK := 4160749568. (* include/network.h:687 *)
Definition RT_ADDRCLASS (flags : Z) : Z := Z.shiftr (u32 flags) 23. (* include/network.h:688 *)
(* include/network.h:692 *)
Definition RT_LOCALADDR (flags : Z) : bool := Z.land flags RTF_ADDRCLASSMASK =? Z.lor RTF_LOCAL RTF_INTERFACE.

(* headers/common/stdint.h:38-51: the constants of 8, 16, 32 and 64 bits *)
Definition INTN_MIN : list Z := [-1 - 127; -1 - 32767; -1 - 2147483647; -1 - 9223372036854775807].
Definition INTN_MAX : list Z := [127; 32767; 2147483647; 9223372036854775807]. (* headers/common/stdint.h:38-51 *)
Definition UINTN_MAX : list Z := [255; 65535; 4294967295; 18446744073709551615]. (* headers/common/stdint.h:38-51 *)
