(** ProxingAllocator; the addresses of the streams library.

    Source: /repo/include/FlameIDE/Templates/Allocator/ProxingAllocator.hpp and Interface.hpp;
    /repo/include/FlameIDE/Streams/SocketUtils.hpp and /repo/src/Streams/SocketUtils.cpp. *)
From Coq Require Import List Arith ZArith Bool.
From Verif Require Import Base.
Import ListNotations.

(** * ProxingAllocator *)

Section Proxy.
  (** What the allocators that do the work do (MallocAllocator or others): a state, and for each
      call a result. *)
  Context {St Call Res : Type}.
  Variable work : St -> Call -> outcome (St * Res).

  (** An allocator object: one that works, or a proxy with the member proxiedAllocator,
      ProxingAllocator.hpp 41. *)
  Inductive alloc := Worker (s : St) | Proxy (target : nat).
  (** The objects of the program at their addresses; None: no such object. Of the model. *)
  Definition pworld := list (option alloc).

  (** allocate, reallocate, deallocate, maxAllocateSize: Interface.hpp 46-70, which call the
      virtual functions, ProxingAllocator.hpp 56-82, which call these functions of the proxied
      object. [Diverge]: not back after [fuel] calls. *)
  Fixpoint proxy_call (fuel : nat) (w : pworld) (a : nat) (c : Call) : outcome (pworld * Res) :=
    match fuel with
    | O => Diverge
    | S fuel =>
        match nth_error w a with
        | Some (Some (Worker s)) => let! r := work s c in Ok (upd w a (Some (Worker (fst r))), snd r)
        | Some (Some (Proxy t)) => proxy_call fuel w t c
        | _ => UB
        end
    end.

  (** The calls of a program, as cited beside each. *)
  Inductive pcall :=
  | PWorker (s : St)           (* a new worker *)
  | PProxy (target : nat)      (* a new proxy: the constructor, 51-54. (An argument that
                                  is itself of the type ProxingAllocator, not a reference to
                                  its base class, selects the copy constructor.) *)
  | PCopy (a : nat)            (* a copy of a proxy: the implicit copy constructor *)
  | PAssign (a b : nat)        (* assignment of proxies: the implicit operator= *)
  | PDelete (a : nat)
  | PCall (a : nat) (c : Call).

  (** Of the model: the target of a proxy that lives. *)
  Definition is_proxy (w : pworld) (a : nat) : outcome nat :=
    match nth_error w a with Some (Some (Proxy t)) => Ok t | _ => UB end.

  (** One call, ProxingAllocator.hpp and Interface.hpp 46-70, by the functions above. *)
  Definition proxy_step (fuel : nat) (w : pworld) (c : pcall) : outcome (pworld * option Res) :=
    match c with
    | PWorker s => Ok (w ++ [Some (Worker s)], None)
    | PProxy t =>
        match nth_error w t with
        | Some (Some _) => Ok (w ++ [Some (Proxy t)], None)
        | _ => UB
        end
    | PCopy a => let! t := is_proxy w a in Ok (w ++ [Some (Proxy t)], None)
    | PAssign a b =>
        let! _ := is_proxy w a in
        let! t := is_proxy w b in Ok (upd w a (Some (Proxy t)), None)
    | PDelete a =>
        match nth_error w a with
        | Some (Some _) => Ok (upd w a None, None)
        | _ => UB
        end
    | PCall a c => let! r := proxy_call fuel w a c in Ok (fst r, Some (snd r))
    end.
  (** Of the model: the calls of a history one after the other. *)
  Fixpoint proxy_run (fuel : nat) (w : pworld) (h : list pcall) : outcome (pworld * list (option Res)) :=
    match h with
    | [] => Ok (w, [])
    | c :: h =>
        let! r := proxy_step fuel w c in
        let! r' := proxy_run fuel (fst r) h in
        Ok (fst r', snd r :: snd r')
    end.
End Proxy.
Arguments alloc : clear implicits.
Arguments pcall : clear implicits.

(** * Addresses *)

Local Open Scope Z_scope.

(** Ipv4, SocketUtils.hpp 43-77, and Ipv6, 80-105: addressNumber and port; None: a value that was
    never set. *)
Record address := Addr { a_numbers : list (option Z); a_port : option Z }.

(** Ipv4::Ipv4(), SocketUtils.cpp 51-61; Ipv6::Ipv6(), 116-126. *)
Definition zero_address (n : nat) : address := Addr (repeat (Some 0) n) (Some 0).
(** Ipv4::Ipv4(), SocketUtils.cpp 51-61. *)
Definition ipv4_default : address := zero_address 4.
(** Ipv6::Ipv6(), SocketUtils.cpp 116-126. *)
Definition ipv6_default : address := zero_address 8.

(** Ipv4::Traits, SocketUtils.hpp 46-56: MAX_STRING_SIZE is 15, which is AddressString::MAX_LENGTH. *)
Definition IPV4_MAX_LENGTH : nat := 15.
(** SocketUtils.hpp 46-56. *)
Definition COUNT_SPLITTERS : nat := 3.
(** The character ':' in SocketUtils.cpp 28. *)
Definition COLON : Z := 58.

(** The counter in stringToIpv4, SocketUtils.cpp 23-34. *)
Fixpoint count_char (c : Z) (text : list Z) : nat :=
  match text with
  | [] => O
  | x :: text => if x =? c then S (count_char c text) else count_char c text
  end.
(** stringToIpv4, SocketUtils.cpp 13-41: the text is given without the NUL that ends it; the
    Expected is a sum (C62 is about Expected). *)
Definition string_to_ipv4 (text : list Z) : address + Z :=
  if (IPV4_MAX_LENGTH <=? length text)%nat then inr (-1)
  else if (count_char COLON text <? COUNT_SPLITTERS)%nat then inr (-1)
  else inl ipv4_default.
(** Ipv4::Ipv4(const char * ), SocketUtils.cpp 73-74, and Ipv4(const ExpectedAddress &), 76-91. *)
Definition ipv4_from_text (text : list Z) : address :=
  match string_to_ipv4 text with
  | inl a => a
  | inr _ => ipv4_default
  end.
(** Ipv6::Ipv6(const char * ), SocketUtils.cpp 137-138. *)
Definition ipv6_from_text (text : list Z) : address := Addr (repeat None 8) None.

(** Copying reads every number: templates::copy, SocketUtils.cpp 63-71, 93-101, 128-135, 140-148. *)
Fixpoint read_numbers (l : list (option Z)) : outcome (list (option Z)) :=
  match l with
  | [] => Ok []
  | None :: _ => UB
  | Some x :: l => let! l := read_numbers l in Ok (Some x :: l)
  end.
(** Ipv4(const Ipv4 &), SocketUtils.cpp 63-71, operator=, 93-101; Ipv6, 128-135, 140-148. *)
Definition address_copy (a : address) : outcome address :=
  let! l := read_numbers (a_numbers a) in
  match a_port a with
  | None => UB
  | Some p => Ok (Addr l (Some p))
  end.
(** getAddress, 103-107, 150-154: a new IpAddressString, SocketUtils.hpp 114-124, all zero; as
    text, up to the first NUL. *)
Definition get_address (a : address) : list Z := [].
