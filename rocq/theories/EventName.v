(** Model of eventsocket/tcpevent_string.go. *)
From Coq Require Import Strings.String List NArith ZArith Bool.
From Verif Require Import GoBase.
Import ListNotations.
Local Open Scope string_scope.
Local Open Scope list_scope.
Local Open Scope Z_scope.

(** eventsocket/server.go:22-29 type TCPEvent (an int), Open and Close *)
Definition Open : Z := 0.
(** eventsocket/server.go:28 Close *)
Definition Close : Z := 1.

(** eventsocket/tcpevent_string.go:7 const _TCPEvent_name *)
Definition TCPEvent_name : bytes := str "OpenClose".
(** eventsocket/tcpevent_string.go:9 var _TCPEvent_index *)
Definition TCPEvent_index : list nat := [0; 4; 9]%nat.

(** eventsocket/tcpevent_string.go:11-16 func (i TCPEvent) String; the slice
    expression panics outside the string *)
Definition event_string (i : Z) : outcome bytes :=
  if (i <? 0) || (i >=? Z.of_nat (length TCPEvent_index) - 1)
  then Ret (str "TCPEvent(" ++ decZ i ++ str ")")
  else let lo := nth (Z.to_nat i) TCPEvent_index 0%nat in
       let hi := nth (S (Z.to_nat i)) TCPEvent_index 0%nat in
       if (lo <=? hi)%nat && (hi <=? length TCPEvent_name)%nat then Ret (firstn (hi - lo) (skipn lo TCPEvent_name)) else Panic.
