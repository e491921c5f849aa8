(** What a proxy is for: it works as the object it was made for. *)
From Coq Require Import List Arith ZArith Bool.
From Verif Require Import Base ProxyModel.
Import ListNotations.

(** The worker behind the object [a]: follow the proxies. *)
Inductive behind {St} (w : list (option (alloc St))) : nat -> nat -> Prop :=
| behind_worker a s : nth_error w a = Some (Some (Worker s)) -> behind w a a
| behind_proxy a t r : nth_error w a = Some (Some (Proxy t)) -> behind w t r -> behind w a r.

(** Histories in which a proxy is only assigned from proxies of objects that were made before it,
    and no object is deleted that a proxy may need. *)
Definition before {St} (w : list (option (alloc St))) (a b : nat) : bool :=
  match nth_error w b with Some (Some (Proxy t)) => t <? a | _ => false end.
Definition careful {St Call} (w : list (option (alloc St))) (c : pcall St Call) : Prop :=
  match c with
  | PWorker _ => True
  | PProxy t => exists x, nth_error w t = Some (Some x)
  | PCopy a => exists t, nth_error w a = Some (Some (Proxy t))
  | PAssign a b => (exists t, nth_error w a = Some (Some (Proxy t))) /\ before w a b = true
  | PDelete a => (exists x, nth_error w a = Some (Some x)) /\ forall b, nth_error w b <> Some (Some (Proxy a))
  | PCall a _ => exists x, nth_error w a = Some (Some x)
  end.

Local Open Scope Z_scope.
(** The text of an IPv4 address: four numbers and dots. *)
Definition digits (n : Z) : list Z :=
  if n <? 10 then [48 + n]
  else if n <? 100 then [48 + n / 10; 48 + n mod 10]
  else [48 + n / 100; 48 + (n / 10) mod 10; 48 + n mod 10].
Definition quad (a b c d : Z) : list Z :=
  digits a ++ [46] ++ digits b ++ [46] ++ digits c ++ [46] ++ digits d.
