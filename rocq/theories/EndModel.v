(* Model of headers/common/endian.h. *)
From Verif Require Import Base.

Definition u16 (z : Z) : Z := z mod 65536. (* for headers/common/endian.h:17-20 *)
(* headers/common/endian.h:17-20; the operands are promoted to int, the result is cut *)
Definition bswap16 (x : Z) : Z := u16 (Z.lor (Z.shiftl x 8) (Z.shiftr x 8)).
(* headers/common/endian.h:22-25 *)
Definition bswap32 (x : Z) : Z :=
  Z.lor (Z.lor (Z.lor (Z.shiftr x 24) (Z.land (Z.shiftr x 8) 0xff00))
               (Z.land (u32 (Z.shiftl x 8)) 0xff0000))
        (u32 (Z.shiftl x 24)).
(* headers/common/endian.h:27-30; + binds closer than <<, which binds closer than | *)
Definition bswap64 (x : Z) : Z :=
  Z.lor (u64 (Z.shiftl (u64 (bswap32 (u32 x) + 0)) 32)) (bswap32 (u32 (Z.shiftr x 32))).

(* headers/common/endian.h:32: [order] is the value of __BYTE_ORDER in #if.  No header of
   the repository defines it (GCC predefines __BYTE_ORDER__ only): an identifier that is no
   macro counts as 0. *)
Definition swaps (order : Z) : bool := order =? 1234.
Definition no_byte_order : Z := 0. (* headers/common/endian.h:32 *)
(* headers/common/endian.h:33-41, 52-60: htobeN, beNtoh and betohN are the same *)
Definition be16 (order x : Z) : Z := if swaps order then bswap16 (u16 x) else u16 x.
(* headers/common/endian.h:33-41, 52-60 *)
Definition be32 (order x : Z) : Z := if swaps order then bswap32 (u32 x) else u32 x.
(* headers/common/endian.h:33-41, 52-60 *)
Definition be64 (order x : Z) : Z := if swaps order then bswap64 (u64 x) else u64 x.
(* headers/common/endian.h:42-50, 61-69: htoleN, leNtoh and letohN *)
Definition le16 (order x : Z) : Z := if swaps order then u16 x else bswap16 (u16 x).
(* headers/common/endian.h:42-50, 61-69 *)
Definition le32 (order x : Z) : Z := if swaps order then u32 x else bswap32 (u32 x).
(* headers/common/endian.h:42-50, 61-69 *)
Definition le64 (order x : Z) : Z := if swaps order then u64 x else bswap64 (u64 x).
