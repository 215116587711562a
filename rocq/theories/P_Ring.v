(** Properties C01, C02: the ring buffer. *)
From Verif Require Import Base Ring_Model Ring_Spec Ring_Proofs Ring_Sim.

(** C01. Any sequence of operations on a fresh ring is defined (no access
    outside the buffer) and its observable results are those of the byte queue
    of Ring_Spec, as long as stored plus pushed bytes never exceed 2^63. *)
Theorem C01_ring_is_fifo :
  forall ops, addressable empty_queue ops ->
  exists r xs q, run ring_init ops = Ok (r, xs) /\ spec_run empty_queue ops q xs.
Proof. exact ring_fifo. Qed.
Print Assumptions C01_ring_is_fifo.

(** A bound on the bytes ever pushed suffices for the precondition. *)
Theorem C01_precondition_from_total :
  forall ops, total_pushed ops <= 2 ^ 63 -> addressable empty_queue ops.
Proof. exact (fun ops => total_addressable ops empty_queue). Qed.
Print Assumptions C01_precondition_from_total.

(** C02. A push in any reachable state either appends everything or fails and
    leaves the ring untouched; it fails only if malloc fails and the data does
    not fit in the present buffer. *)
Theorem C02_push_all_or_nothing :
  forall ops d malloc_ok,
  addressable empty_queue (ops ++ [Push d malloc_ok]) ->
  forall r xs, run ring_init ops = Ok (r, xs) ->
  (exists r', ring_push r d malloc_ok = Ok (r', true)
     /\ used r' = used r + lenN d
     /\ ring_copy r' (used r') = (do old <- ring_copy r (used r); Ok (old ++ map Some d)))
  \/ (ring_push r d malloc_ok = Ok (r, false) /\ malloc_ok = false
      /\ size r < used r + lenN d).
Proof. exact ring_push_atomic. Qed.
Print Assumptions C02_push_all_or_nothing.

(** Pushing within the free space never allocates and never fails. *)
Theorem C02_push_within_space :
  forall r d, lenN d <= size r - used r ->
  ring_push r d true = ring_push r d false
  /\ forall r' b, ring_push r d false = Ok (r', b) -> b = true /\ size r' = size r.
Proof. exact ring_push_fit_no_alloc. Qed.
Print Assumptions C02_push_within_space.

(** The buffer wraps around, grows while wrapped, and survives a failed
    allocation. *)
Definition seqN (n : nat) : list N := map (fun i => N.of_nat i mod 256) (seq 0 n).
Definition demo : list op :=
  [Push (seqN 4000) true; Pull 3990; Push (seqN 120) false; Peek;
   Push (seqN 5000) false; GetSize; Push (seqN 5000) true; Copy 12; GetSize].

Example C01_nontrivial : addressable empty_queue demo.
Proof. apply total_addressable. vm_compute. discriminate. Qed.
Example C01_wraps :
  match run ring_init demo with
  | Ok (r, xs) =>
      size r = 8192 /\ nth 3 xs ODone =
        OSegs [map Some (dropN 3990 (seqN 4000) ++ takeN 96 (seqN 120));
               map Some (dropN 96 (seqN 120))]
      /\ nth 4 xs ODone = OErr false /\ nth 5 xs ODone = OSize 130
      /\ nth 7 xs ODone = OBytes (map Some [150;151;152;153;154;155;156;157;158;159;0;1])
      /\ nth 8 xs ODone = OSize 5130
  | UB => False
  end.
Proof. vm_compute. repeat split. Qed.
