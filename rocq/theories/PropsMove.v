(** Property theorems about which bytes calls write: C88. *)
From Coq Require Import Lia.
From Verif Require Import Base TypeModel TypeSpec TypeFinal CopyModel CopySpec CopyEx SysModel CollModel SysCalls SysSpec SysLog SysReach SysEx SysFinal FlowSpec FlowEx MoveSpec MoveFacts MoveEx.

(** C88: after a legal call every byte of memory is as before, or has been taken from a byte that the call may take there. *)
Theorem C88_bytes_written :
  forall (c : cfg) (tj : Z -> tjunk) (s : sys) (a : astate) (k : call) (o : out) (s' : sys) (a' : astate),
    reach c tj s a -> does c tj s a k o s' a' -> (forall m, k <> KUser m) ->
    same_layout (s_mem s) (s_mem s') /\ forall x, s_mem s' x = s_mem s x \/ exists y, moves c a k x y /\ s_mem s' x = s_mem s y.
Proof. exact C88_lemma. Qed.
Print Assumptions C88_bytes_written.
(** The calls that move no data leave memory alone. *)
Theorem C88_silent_calls :
  forall (c : cfg) (tj : Z -> tjunk) (s : sys) (a : astate) (k : call) (o : out) (s' : sys) (a' : astate),
    reach c tj s a -> does c tj s a k o s' a' -> silent k -> s_mem s' = s_mem s.
Proof. exact C88_silent_lemma. Qed.
Print Assumptions C88_silent_calls.
(** A byte that none of the calls of a program may write keeps its value. *)
Theorem C88_protected_bytes :
  forall (c : cfg) (tj : Z -> tjunk) (x : Z) (ks : list call) (s : sys) (a : astate) (t : sys), reach c tj s a ->
    all_along c tj (fun k a => legal c tj k a /\ no_store k /\ ~ may_write c a k x) ks a -> snd (run c ks s) = Ok t -> s_mem t x = s_mem s x.
Proof. exact C88_run_lemma. Qed.
Print Assumptions C88_protected_bytes.
(** The bytes of a message are those of its elements, for a well-formed datatype and offsets that fit an int (or without that
    condition, in pack and unpack). *)
Theorem C88_bytes_of_a_message :
  forall (c : cfg) (cut : Z -> Z) (t : typestruct) (e buf n x : Z),
    typed c t e -> 0 <= n -> cut = id \/ cut = to_s32 /\ offsets_fit n e (typemap t) ->
    (forall r, In r (layout c buf n e (typemap t)) -> 0 <= fst r /\ fst r + snd r <= TWO64) -> 0 <= x < TWO64 ->
    (in_message c cut t buf n x <-> exists r, In r (layout c buf n e (typemap t)) /\ inside r x).
Proof. exact C88_region_lemma. Qed.
Print Assumptions C88_bytes_of_a_message.
(** A receive of four ints at 500 is waiting; two items of a vector type are sent from 100.  The send may write exactly the bytes
    500 to 515; byte 504 comes from 108, and byte 516 is still there when the requests have been tested. *)
Example C88_ex : let s := ex_s h_wait in let a := ex_a h_wait in let k := KIsend 100 2 2 0 5 1 in
  reach default_cfg ex_tj s a /\ moves default_cfg a k 504 108 /\
  (forall x, 0 <= x < TWO64 -> may_write default_cfg a k x -> 500 <= x < 516) /\
  all_along default_cfg ex_tj (fun k a => legal default_cfg ex_tj k a /\ no_store k /\ ~ may_write default_cfg a k 516) h_then a /\
  fst (run default_cfg h_then s) = [VInt 4; VTest 0 1 (SAt (mkStatus 0 5 13 14))] /\
  seen [504; 516] (run default_cfg h_then s) = Ok [ex_mem 108; ex_mem 516].
Proof. exact C88_ex_lemma. Qed.
