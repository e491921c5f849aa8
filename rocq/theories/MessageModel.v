(** A program that serialises values, sends the bytes and deserialises what it receives: Serializer
    and Deserializer together with the connections and streams of the library.

    Source: /repo/include/FlameIDE/Templates/Serialization/{Serializer,Deserializer}.hpp (in
    SerializationModel), the streams and connections of StreamModel, TcpStreamModel and
    UdpClientModel. *)
From Coq Require Import List Arith ZArith Bool.
From Verif Require Import Base ByteOrderModel SerializationModel TcpStreamModel.
Import ListNotations.
Local Open Scope Z_scope.
Local Open Scope outcome_scope.

(** Of the application: a message is made by a Serializer at the beginning of a buffer,
    Serializer.hpp 81-103; the buffer afterwards. *)
Definition make_message (host o : order) (vs : list (ity * Z)) (buffer : list Z)
  : outcome (list Z) :=
  let! (s, _) := serialize_all host o vs (Ser buffer 0) in Ok (s_data s).

(** Of the application: the values are taken by a Deserializer at the beginning of the bytes,
    Deserializer.hpp 93-110. *)
Definition take_values (host o : order) (ts : list ity) (bytes : list Z) : outcome (list Z) :=
  let! (_, vs, _) := deserialize_all host o ts (Ser bytes 0) in Ok vs.

(** Of the application: what a program writes around receive (TcpClient.cpp 67-76, TcpServer.cpp
    128-137) to fill a range; None: receive failed or the connection has ended. *)
Fixpoint receive_all (p : platform) (c : conn) (s : bool) (size : nat) (answers : list answer)
  : ran (conn * option (list Z)) :=
  match size with
  | O => Ran (c, Some [])
  | _ =>
      match answers with
      | [] => Waits
      | a :: answers =>
          match tcp_receive p c s size a with
          | Ran (c, r, bytes) =>
              if r <=? 0 then Ran (c, None)
              else
                match receive_all p c s (size - Z.to_nat r) answers with
                | Ran (c, Some more) => Ran (c, Some (bytes ++ more))
                | other => other
                end
          | Waits => Waits
          | Killed => Killed
          end
      end
  end.
