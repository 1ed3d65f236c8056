(* How buffers before and after an operation are related. *)
From Coq Require Import ZArith List Bool.
From Verif.Model Require Import JavaPrim ByteBuf.
Import ListNotations.
Open Scope Z_scope.

(* [b1] is [b] with [bs] appended: nothing before the old writer index changed, the reader index did not move *)
Record appended (b : bytebuf) (bs : list Z) (b1 : bytebuf) : Prop := {
  app_content : content b1 = content b ++ bs;
  app_ridx : ridx b1 = ridx b;
  app_maxcap : maxcap b1 = maxcap b;
  app_slack : cs_slack b1 = cs_slack b;
  app_policy : policy b1 = policy b
}.

(* [n] more bytes fit under maxCapacity *)
Definition fits (b : bytebuf) (n : nat) : Prop := Z.of_nat (widx b) + Z.of_nat n <= maxcap b.

(* [b1] is [b] with the reader index advanced by [n]; everything else is unchanged *)
Definition advanced (b : bytebuf) (n : nat) (b1 : bytebuf) : Prop := b1 = set_ridx b (ridx b + n).

(* how many bytes readCharSequence finds: up to the writer index, or (netty 4.1.100) up to the capacity *)
Definition char_bytes (b : bytebuf) : Z := Z.of_nat (if cs_slack b then capacity b else widx b) - Z.of_nat (ridx b).
