(** Model of the iterator arithmetic of
    /repo/include/FlameIDE/Templates/Iterator/Operators.hpp. An iterator over a contiguous
    buffer is the index it points to (an integer, so that "one before the begin" exists). *)
From Coq Require Import ZArith Bool.
Local Open Scope Z_scope.

(** ReverseIterator: increments and offsets, Operators.hpp 33-61, 133-177; ++ is 33-46. *)
Definition rev_inc (it : Z) : Z := it - 1.
(** Operators.hpp 48-61. *)
Definition rev_dec (it : Z) : Z := it + 1.
(** Operators.hpp 163-169; operator+ is 133-140. *)
Definition rev_plus_assign (it n : Z) : Z := it - n.
(** Operators.hpp 171-177; operator- is 149-156. *)
Definition rev_minus_assign (it n : Z) : Z := it + n.
(** operator-(const Me &), Operators.hpp 158-161 (not reversed). *)
Definition rev_difference (a b : Z) : Z := a - b.

(** ReverseIterator: comparisons, Operators.hpp 219-241. *)
Definition rev_gt (a b : Z) : bool := a <=? b.
(** Operators.hpp 225-229. *)
Definition rev_lt (a b : Z) : bool := a >=? b.
(** Operators.hpp 231-235. *)
Definition rev_ge (a b : Z) : bool := a <? b.
(** Operators.hpp 237-241. *)
Definition rev_le (a b : Z) : bool := a >? b.

(** operator[] of a reverse iterator: the index it denotes, Operators.hpp 243-255. *)
Definition rev_index (it n : Z) : Z := it - n.

Section Circular.
  (** The range [first, last) of the underlying buffer. *)
  Variable first last : Z.

  (** prefix ++, Operators.hpp 475-485. *)
  Definition circ_inc (it : Z) : Z := if it + 1 =? last then first else it + 1.

  (** prefix --, Operators.hpp 487-497. *)
  Definition circ_dec (it : Z) : Z := if it - 1 =? first - 1 then last - 1 else it - 1.

  (** postfix ++ and --, Operators.hpp 10-16 and 25-31 (not redefined for circular
      iterators, CircularIterator.hpp 139-142): new position. *)
  Definition circ_post_inc (it : Z) : Z := it + 1.
  (** postfix --, Operators.hpp 25-31: new position. *)
  Definition circ_post_dec (it : Z) : Z := it - 1.

  (** +=, Operators.hpp 499-515. C++ [%] truncates: [Z.rem]. *)
  Definition circ_plus (it value : Z) : Z :=
    let diff := last - first in
    let value := Z.rem value diff in
    if it + value >=? last then first + (it - last + value) else it + value.

  (** -=, Operators.hpp 517-533. *)
  Definition circ_minus (it value : Z) : Z :=
    let diff := last - first in
    let value := Z.rem value diff in
    if it - value <? first then last - (first - it + value) else it - value.

  (** operator[], Operators.hpp 535-569: the index it denotes. *)
  Definition circ_index (it value : Z) : Z :=
    let diff := last - first in
    let value := Z.rem value diff in
    if value >? last - it then first + (diff - value) else it + value.

  (** operator-(const Me &), Operators.hpp 112-115. *)
  Definition circ_difference (a b : Z) : Z := a - b.
End Circular.
