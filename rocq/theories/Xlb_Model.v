(** Load-balancing on addresses only: src/extension/cmdXlb.c. *)
From Verif Require Import Base IpKey_Model Maglev_Model.

(** FW, cmdXlb.c:34.  The table is in shared memory; it is as in m1, m2, m3
    when lookup[0], lookup[hash % M] and active[.] are read. *)
Definition xlbMark (m1 m2 m3 : mag) (hash : Z) : outcome Z :=
  do l0 <- aget (mlookup m1) 0;
  if l0 <? 0 then Ok (-1)
  else
    do l <- aget (mlookup m2) (hash mod mM m2);
    aget (mactive m3) l.

(** packetHandleFn, cmdXlb.c:36-47 *)
Definition xlbPacket (m1 m2 m3 : mag) (eth : Z) (data : list Z) : outcome Z :=
  do r <- getHashKey (S (length data)) 0 eth data;
  match r with
  | None => Ok (-1)
  | Some (_, k, _) => xlbMark m1 m2 m3 (hashKeyAddresses k)
  end.
