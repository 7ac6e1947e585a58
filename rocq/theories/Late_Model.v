(** The fragment table with the look-up as it is: ctLookup reads the data of the bucket it has
    found a second time after it has let go of the mutex (conntrack.c:171-172,
    [UNLOCK(&B->mutex); return b->data;]).  Conntrack_Model.ctLookup, and so Frag_Model, return
    what was found; here the second read is a step of its own.  All other steps are those of
    Frag_Model. *)
From Verif Require Import Base IpKey_Model Conntrack_Model Frag_Model.

(** The bucket b that was found: the one in the array, or an overflow bucket. *)
Inductive cell := Main | Over (m : Z).
Fixpoint chain_cell (l : list cent) (k : ckey) : option cell :=
  match l with [] => None | e :: r => if hit k e then Some (Over (c_mem e)) else chain_cell r k end.
Definition cell_of (b : bucket) (k : ckey) : option cell :=
  if hit k (b_main b) then Some Main else chain_cell (b_chain b) k.

(** b->data.  The memory of an overflow bucket that was given back, and may since have become one
    of another bucket, holds whatever [seen] is. *)
Fixpoint chain_data (l : list cent) (m : Z) : option Z :=
  match l with [] => None | e :: r => if c_mem e =? m then Some (c_data e) else chain_data r m end.
Definition cell_data (b : bucket) (x : cell) (seen : Z) : Z :=
  match x with Main => c_data (b_main b) | Over m => match chain_data (b_chain b) m with Some d => d | None => seen end end.

(** A thread: at a point of Frag_Model, or in ctLookup with the mutex given back, having found
    object [o] in cell [x] of bucket [i]; [again]: the second look-up of fragDataLookup *)
Inductive lpc := At (p : pc) | Late (c : call) (again : bool) (o i : Z) (x : cell).

(** conntrack.c:171-172 and what the callers do with the answer, fragutils.c:114-120, 135-142, 315-318 *)
Definition late_read (s : sys) (c : call) (again : bool) (i : Z) (x : cell) (seen : Z) : outcome (sys * lpc * list obs) :=
  do b <- aget (t_buckets (s_ct s)) i;
  let d := cell_data b x seen in
  if d =? 0 then
    if again then Ok (s, At Idle, ret c (-1) None)
    else match c with CGet _ _ => Ok (s, At Idle, ret c (-1) None) | _ => Ok (s, At (PAlloc c), []) end
  else Ok (s, At (PBody c d), []).

(** The call made at a point where the table is searched *)
Definition looks (p : pc) (a : choice) : option (call * bool) :=
  match p with Idle => Some (a_call a, false) | PAgain c => Some (c, true) | _ => None end.
Definition ltstep (g : conf) (s : sys) (p : lpc) (a : choice) (seen : Z) : outcome (sys * lpc * list obs) :=
  match p with
  | Late c again o i x => late_read s c again i x seen
  | At p =>
      do r <- tstep g s p a;
      let '(s1, p1, ob) := r in
      match looks p a, p1 with
      | Some (c, again), PBody _ o =>
          do i <- slot (t_buckets (s_ct s1)) (c_k c);
          do b <- aget (t_buckets (s_ct s1)) i;
          match cell_of b (c_k c) with
          | Some x => Ok (s1, Late c again o i x, ob)
          | None => UB
          end
      | _, _ => Ok (s1, At p1, ob)
      end
  end.

Inductive llabel := LLThread (i : Z) (a : choice) (seen : Z) | LLStats (i now : Z).
Record lworld := mkLate { l_sys : sys; l_pcs : list lpc }.
Definition lstart (g : conf) (threads : nat) : lworld := mkLate (fragTableCreate g) (repeat (At Idle) threads).
Definition lwstep (g : conf) (w : lworld) (l : llabel) : option (outcome (lworld * list obs)) :=
  match l with
  | LLThread i a seen =>
      match znth (l_pcs w) i with
      | None => None
      | Some p =>
          Some (do x <- ltstep g (l_sys w) p a seen;
                let '(s, p', ob) := x in Ok (mkLate s (zupd (l_pcs w) i p'), ob))
      end
  | LLStats i now =>
      if (0 <=? i) && (i <? zlen (t_buckets (s_ct (l_sys w)))) then
        Some (do x <- gc_bucket (l_sys w) i now;
              let '(s, ob) := x in Ok (mkLate s (l_pcs w), ob))
      else None
  end.
