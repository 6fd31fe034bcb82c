(** Specification of character string results. *)
From Verif Require Import Base MiscModel.

(** A buffer that holds the C string [s]: its characters, then a NUL. *)
Definition holds (buf s : list Z) : Prop := ~ In 0 s /\ exists rest, buf = s ++ 0 :: rest.
(** The first [n] bytes may differ, the others do not. *)
Definition same_after (n : nat) (buf buf' : list Z) : Prop := length buf' = length buf /\ skipn n buf' = skipn n buf.

(** Decimal notation. *)
Definition value (ds : list Z) : Z := fold_left (fun a d => 10 * a + (d - 48)) ds 0.
Definition decimal (ds : list Z) : Prop := ds <> [] /\ (forall d, In d ds -> 48 <= d <= 57) /\ (forall r, ds = 48 :: r -> r = []).
Definition denotes (l : list Z) (z : Z) : Prop :=
  (decimal l /\ z = value l) \/ (exists ds, l = 45 :: ds /\ decimal ds /\ z = - value ds /\ z < 0).

(** A Fortran character variable of length [n] that holds [s], padded with blanks. *)
Definition padded (n : nat) (buf s : list Z) : Prop := firstn n buf = s ++ repeat 32 (n - length s) /\ (length s <= n)%nat /\ ~ In 0 s.
