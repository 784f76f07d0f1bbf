(** Network: clients of network devices and the server of the controller.

    Sources: /repo/PAC/common/tcp_client.cpp ("tc"), /repo/PAC/linux/l_tcp_client.cpp
    ("l"), /repo/PAC/common/tcp_cmctr.cpp ("cm"), /repo/PAC/linux/l_tcp_cmctr.cpp
    ("lcm"), /repo/PAC/common/modbus_client.cpp ("mc").

    The operating system is an oracle: what its calls return during one call of
    the program is given by a record [os].  Descriptors of the process that are
    open are the function [opn]; everything the program asks of the operating
    system that matters below is recorded in the trace [tr] (newest first).
    Not modelled: logging, the statistics of the transfer times, [shutdown]
    (always followed by [close]), the contents of the buffers of the clients. *)
From Coq Require Import ZArith List Bool Lia.
From Verif Require Import Base TimeModel.
Import ListNotations.
Open Scope Z_scope.

(** * Clients *)

(** tcp_client.h:14-27. *)
Definition AR_SOCKETERROR := -3.
Definition AR_TIMEOUT := -2.
Definition AR_BUSY := -1.
Definition AR_FREE := 0.
Definition CONNECTED := 1.
Definition DISCONNECTED := 0.
Definition CONNECTING := -1.

(** tcp_client.h:29-47, l_tcp_client.h:12-17: the fields used below.
    [tmo]: timeout = connectTimeout; async_timeout is twice, maxreconnectTimeout
    thirty times as long and neither is ever changed. *)
Record client := {
  tmo : Z;            (* timeout *)
  cst : Z;            (* connectedstate *)
  sock : Z;           (* socket_number *)
  wait : Z;           (* reconnectTimeout *)
  tried : Z;          (* async_last_connect_try *)
  begun : Z;          (* async_startconnnect *)
  ares : Z;           (* async_result *)
  queued : Z;         (* async_queued *)
  tosend : Z;         (* async_bytes_to_send *)
  rtime : Z;          (* asyncReciveTime *)
  newdata : bool      (* newDataIsAvailable *) }.

Definition set_cst v c := {| tmo := tmo c; cst := v; sock := sock c; wait := wait c; tried := tried c; begun := begun c; ares := ares c; queued := queued c; tosend := tosend c; rtime := rtime c; newdata := newdata c |}.
Definition set_sock v c := {| tmo := tmo c; cst := cst c; sock := v; wait := wait c; tried := tried c; begun := begun c; ares := ares c; queued := queued c; tosend := tosend c; rtime := rtime c; newdata := newdata c |}.
Definition set_wait v c := {| tmo := tmo c; cst := cst c; sock := sock c; wait := v; tried := tried c; begun := begun c; ares := ares c; queued := queued c; tosend := tosend c; rtime := rtime c; newdata := newdata c |}.
Definition set_tried v c := {| tmo := tmo c; cst := cst c; sock := sock c; wait := wait c; tried := v; begun := begun c; ares := ares c; queued := queued c; tosend := tosend c; rtime := rtime c; newdata := newdata c |}.
Definition set_begun v c := {| tmo := tmo c; cst := cst c; sock := sock c; wait := wait c; tried := tried c; begun := v; ares := ares c; queued := queued c; tosend := tosend c; rtime := rtime c; newdata := newdata c |}.
Definition set_ares v c := {| tmo := tmo c; cst := cst c; sock := sock c; wait := wait c; tried := tried c; begun := begun c; ares := v; queued := queued c; tosend := tosend c; rtime := rtime c; newdata := newdata c |}.
Definition set_queued v c := {| tmo := tmo c; cst := cst c; sock := sock c; wait := wait c; tried := tried c; begun := begun c; ares := ares c; queued := v; tosend := tosend c; rtime := rtime c; newdata := newdata c |}.
Definition set_tosend v c := {| tmo := tmo c; cst := cst c; sock := sock c; wait := wait c; tried := tried c; begun := begun c; ares := ares c; queued := queued c; tosend := v; rtime := rtime c; newdata := newdata c |}.
Definition set_rec t b c := {| tmo := tmo c; cst := cst c; sock := sock c; wait := wait c; tried := tried c; begun := begun c; ares := ares c; queued := queued c; tosend := tosend c; rtime := t; newdata := b |}.

(** What is seen from outside: a new attempt to connect [ETry] (with its time),
    the result of [AsyncConnect] [EResult], bytes handed to a descriptor [ESend],
    a descriptor closed [EClose].  The first argument is the client. *)
Inductive ev := ETry (i t : Z) | EResult (i r : Z) | ESend (i fd : Z) | EClose (i fd : Z).

Record world := {
  cl : Z -> client;       (* all clients *)
  opn : Z -> bool;        (* open descriptors of the process *)
  reg : list (Z * Z);     (* tcp_communicator::clients: socket -> client, by socket *)
  tr : list ev }.

Definition upc (i : Z) (f : client -> client) (w : world) : world :=
  {| cl := fun j => if j =? i then f (cl w i) else cl w j; opn := opn w; reg := reg w; tr := tr w |}.
Definition set_open (fd : Z) (b : bool) (w : world) : world :=
  {| cl := cl w; opn := fun x => if x =? fd then b else opn w x; reg := reg w; tr := tr w |}.
Definition set_reg (l : list (Z * Z)) (w : world) : world :=
  {| cl := cl w; opn := opn w; reg := l; tr := tr w |}.
Definition note (e : ev) (w : world) : world :=
  {| cl := cl w; opn := opn w; reg := reg w; tr := e :: tr w |}.

(** [socket], [setsockopt], [fcntl], [connect] in this order, up to the first
    that fails; [Refused]: [connect] fails with something else than EINPROGRESS. *)
Inductive opening := NoSocket | NoOption (fd : Z) | NoNonblock (fd : Z) | Refused (fd : Z) | Pending (fd : Z).
(** [select] for writing: nothing yet, error, writable with or without SO_ERROR. *)
Inductive selres := SNothing | SError | SReady (err : bool).

(** [o_send]: result of [sendall]; [o_avail]: of [checkBuff]; [o_recv]: of
    [recvtimeout]. *)
Record os := { o_now : Z; o_open : opening; o_sel : selres; o_send : Z; o_avail : bool; o_recv : Z }.

Definition close_fd (i fd : Z) (w : world) : world := note (EClose i fd) (set_open fd false w).

Section Clients.
  (** Width of [unsigned long]. *)
  Context (W : Z).
  Definition ul (x : Z) : Z := x mod 2 ^ W.

  (** tc:14-34, l:40-51; [tosend], [rtime] and [newdata] are not initialised. *)
  Definition new_client (t now : Z) (g1 g2 : Z) (g3 : bool) : client :=
    {| tmo := t; cst := 0; sock := 0; wait := ul (t * 5); tried := now; begun := now; ares := 0;
       queued := 0; tosend := g1; rtime := g2; newdata := g3 |}.

  (** l:263-269. *)
  Definition disconnect (i : Z) (w : world) : world :=
    upc i (fun c => set_cst DISCONNECTED (set_sock 0 c)) (close_fd i (sock (cl w i)) w).

  (** l:201-258, the part of [AsyncConnect] for a pending connection. *)
  Definition finish_connect (i : Z) (o : os) (w : world) : world * Z :=
    if cst (cl w i) =? CONNECTING then
      match o_sel o with
      | SNothing =>
          if get_delta_millisec W (o_now o) (begun (cl w i)) >? tmo (cl w i)
          then (disconnect i w, DISCONNECTED)
          else (upc i (set_cst CONNECTING) w, CONNECTING)
      | SError | SReady true => (disconnect i w, DISCONNECTED)
      | SReady false => (upc i (set_cst CONNECTED) w, CONNECTED)
      end
    else (upc i (set_cst CONNECTED) w, CONNECTED).

  (** l:139-260. *)
  Definition async_connect (i : Z) (o : os) (w : world) : world * Z :=
    if cst (cl w i) =? CONNECTED then (w, 1)
    else if cst (cl w i) =? DISCONNECTED then
      match o_open o with
      | NoSocket => (upc i (set_sock (-1)) w, 0)
      | NoOption fd | NoNonblock fd =>
          (upc i (set_sock 0) (close_fd i fd (set_open fd true w)), 0)
      | Refused fd =>
          finish_connect i o (disconnect i (upc i (set_sock fd) (set_open fd true w)))
      | Pending fd =>
          finish_connect i o
            (upc i (fun c => set_cst CONNECTING (set_begun (o_now o) (set_sock fd c))) (set_open fd true w))
      end
    else finish_connect i o w.

  (** tc:67-107; the second branch of the conditional expression in line 85 is
      the only one with an effect. *)
  Definition check_connection (i : Z) (o : os) (w : world) : world * bool :=
    let c := cl w i in
    if negb (cst c =? CONNECTED) then
      if (get_delta_millisec W (o_now o) (tried c) >? wait c) || (cst c =? CONNECTING) then
        let w1 := if cst c =? DISCONNECTED then note (ETry i (o_now o)) (upc i (set_tried (o_now o)) w) else w in
        let '(w2, r) := async_connect i o w1 in
        let w3 := note (EResult i r) w2 in
        if r =? DISCONNECTED then
          (upc i (fun c => set_ares AR_SOCKETERROR
                    (if wait c >? ul (tmo c * 30) then c else set_wait (ul (wait c * 2)) c)) w3, false)
        else if r =? CONNECTING then (upc i (set_cst CONNECTING) w3, false)
        else if r =? CONNECTED then (upc i (fun c => set_wait (ul (tmo c * 5)) c) w3, true)
        else (w3, true)
      else (upc i (set_ares AR_SOCKETERROR) w, false)
    else (w, true).

  (** cm:150-155 [clients[0][client->get_socket()] = client]: an ordered map. *)
  Fixpoint reg_put (k i : Z) (l : list (Z * Z)) : list (Z * Z) :=
    match l with
    | [] => [(k, i)]
    | (k', i') :: r =>
        if k <? k' then (k, i) :: l
        else if k =? k' then (k, i) :: r
        else (k', i') :: reg_put k i r
    end.

  (** l:271-295 with tc:114-120. *)
  Definition async_send (i n : Z) (o : os) (w : world) : world :=
    let w1 := upc i (fun c => set_tosend n (set_ares AR_BUSY c)) w in
    let '(w2, ok) := check_connection i o w1 in
    if negb ok then w2 else
    let w3 := note (ESend i (sock (cl w2 i))) w2 in
    if o_send o <? 0 then disconnect i (upc i (set_ares AR_SOCKETERROR) w3)
    else upc i (fun c => set_queued (o_now o) (set_ares AR_BUSY c))
           (set_reg (reg_put (sock (cl w3 i)) i (reg w3)) w3).

  (** l:327-334: the result, after continuing to connect. *)
  Definition get_async_result (i : Z) (o : os) (w : world) : world * Z :=
    let w1 := if cst (cl w i) =? CONNECTING then async_send i (tosend (cl w i)) o w else w in
    (w1, ares (cl w1 i)).

  (** l:297-325; returns the number of bytes received. *)
  Definition async_receive (i : Z) (o : os) (w : world) : world * Z :=
    let w1 := upc i (set_ares AR_BUSY) w in
    let '(w2, ok) := check_connection i o w1 in
    if negb ok then (w2, 0) else
    let w3 := if o_avail o && negb (newdata (cl w2 i)) then upc i (set_rec (o_now o) true) w2 else w2 in
    let due := (ul (tmo (cl w3 i) * 2) <=? get_delta_millisec W (o_now o) (rtime (cl w3 i))) && newdata (cl w3 i) in
    let w4 := if due then upc i (fun c => set_rec (rtime c) false c) w3 else w3 in
    let res := if due then o_recv o else 0 in
    if res <? 0 then (disconnect i (upc i (set_ares AR_SOCKETERROR) w4), 0) else (w4, res).

  (** l:53-137; the result of [connect] is not looked at. *)
  Definition connect (i : Z) (o : os) (w : world) : world * bool :=
    if negb (cst (cl w i) =? 0) then (w, true) else
    match o_open o with
    | NoSocket => (upc i (set_sock (-1)) w, false)
    | NoOption fd => (close_fd i fd (upc i (set_sock fd) (set_open fd true w)), false)
    | NoNonblock fd => (upc i (set_sock 0) (close_fd i fd (set_open fd true w)), false)
    | Refused fd | Pending fd =>
        let w1 := upc i (set_sock fd) (set_open fd true w) in
        match o_sel o with
        | SReady false => (upc i (set_cst 1) w1, true)
        | _ => (upc i (set_sock 0) (close_fd i fd w1), false)
        end
    end.

  (** l:10-38. *)
  Definition communicate (i : Z) (o : os) (w : world) : world * Z :=
    let '(w1, ok) := if cst (cl w i) =? 0 then connect i o w else (w, true) in
    if negb ok then (w1, 0) else
    let w2 := note (ESend i (sock (cl w1 i))) w1 in
    if o_send o <? 0 then (disconnect i w2, 0)
    else if o_recv o <? 0 then (disconnect i w2, 0)
    else (w2, o_recv o).

  (** mc:403-436 and the seven functions after it: [expected] is the expected
      length of the answer, [n] the length of the request.  True: answered. *)
  Definition modbus_poll (i n expected : Z) (o o2 : os) (w : world) : world * bool :=
    let '(w1, ar) := get_async_result i o w in
    if ar =? AR_BUSY then (w1, false)
    else if (ar >? 0) && (ar =? expected) then (upc i (set_ares AR_FREE) w1, true)
    else (async_send i n o2 w1, false).

  (** ** tcp_communicator_linux::evaluate, the clients *)

  (** One pass of the service loop, lcm:304-487, as far as clients are concerned:
      [select] found nothing, failed, or the descriptors [rd] are readable, from
      which [recvtimeout] gives [rc]. *)
  Inductive cycle := CyNothing | CyError | CyReady (now : Z) (rd : Z -> bool) (rc : Z -> Z).

  (** lcm:447-486; the entries that stay. *)
  Fixpoint eval_clients (now : Z) (rd : Z -> bool) (rc : Z -> Z) (l : list (Z * Z)) (w : world)
    : list (Z * Z) * world :=
    match l with
    | [] => ([], w)
    | (k, i) :: r =>
        let c := cl w i in
        if rd (sock c) then
          let e := rc (sock c) in
          eval_clients now rd rc r
            (if e <=? 0 then upc i (set_ares AR_SOCKETERROR) (disconnect i w) else upc i (set_ares e) w)
        else if get_delta_millisec W now (queued c) >? ul (tmo c * 2) then
          eval_clients now rd rc r (upc i (set_ares AR_TIMEOUT) (disconnect i w))
        else let '(l', w') := eval_clients now rd rc r w in ((k, i) :: l', w')
    end.

  Fixpoint evaluate_clients (l : list cycle) (w : world) : world :=
    match l with
    | [] => w
    | CyNothing :: _ => w
    | CyError :: r => evaluate_clients r w
    | CyReady now rd rc :: r =>
        let '(g, w') := eval_clients now rd rc (reg w) w in
        evaluate_clients r (set_reg g w')
    end.
End Clients.

(** * Sending *)

(** lcm:540-629 [sendall]: one pass of the loop is a result of [select] and one
    of [send].  The result and the bytes handed over; [None]: the loop goes on
    (the list of oracle results is used up). *)
Fixpoint sendall (os : list (Z * Z)) (buf : list Z) (res : Z) : option Z * list Z :=
  match buf with
  | [] => (Some res, [])
  | _ =>
      match os with
      | [] => (None, [])
      | (s, n) :: r =>
          if s =? 0 then (Some (-2), [])
          else if s =? -1 then (Some (-1), [])
          else if n <? 0 then (Some (-3), [])
          else
            let k := Z.to_nat n in
            let '(x, l) := sendall r (skipn k buf) s in (x, firstn k buf ++ l)
      end
  end.

(** * The server *)

(** cm:46-75 and lcm:831-898: the answer to one received message.

    [msg]: the bytes received by the only call of [recv]; the rest of the buffer
    is zero (line 778).  A service gets its length argument and the memory of
    the buffer from byte 6 on, and yields a result and the buffer after it has
    written its data from byte 5 (services) or 6 (Modbus) on. *)
Definition AKN_ERR := 7.
Definition AKN_OK := 12.
Definition ERR_WRONG_SERVICE := 3.
Definition ERR_WRONG_CMD := 5.

Definition service := Z -> mem -> Z * mem.

Definition load (msg : list Z) : mem := fun a => if a <? 0 then 0 else nth (Z.to_nat a) msg 0.
Definition put (m : mem) (a v : Z) : mem := fun x => if x =? a then v else m x.

(** cm:46-55, 57-65, 67-75: the buffer and the number of bytes to be sent, as
    [sendall] gets it (u_int converted to int). *)
Definition error_akn (net_id pidx error : Z) (m : mem) : mem * Z :=
  (put (put (put (put (put (put m 0 net_id) 1 AKN_ERR) 2 pidx) 3 0) 4 1) 5 error, 6).
Definition akn_data (net_id pidx len : Z) (m : mem) : mem * Z :=
  (put (put (put (put (put m 0 net_id) 1 AKN_OK) 2 pidx) 3 (Z.land (Z.shiftr len 8) 0xFF)) 4 (Z.land len 0xFF),
   s32 (len + 5)).
Definition akn_ok (net_id pidx : Z) (m : mem) : mem * Z :=
  (put (put (put (put (put m 0 net_id) 1 AKN_OK) 2 pidx) 3 0) 4 0, 5).

(** lcm:831-898; [cnt] is [in_buffer_count] on entry. *)
Definition answer (services : Z -> option service) (msg : list Z) : mem * Z :=
  let b := load msg in
  let net_id := b 0 in let pidx := b 3 in
  match (if (net_id =? 115) && (b 1 <? 16) && negb (b 2 + b 3 =? 0) then services (b 1) else None) with
  | Some f =>
      if b 2 =? 1 then
        let '(res, b1) := f (b 4 * 256 + b 5) b in
        if res =? 0 then akn_ok net_id pidx b1 else akn_data net_id pidx res b1
      else error_akn net_id pidx ERR_WRONG_CMD b
  | None =>
      match (if b 2 + b 3 =? 0 then services 15 else None) with
      | Some f =>
          let '(res, b1) := f (b 4 * 256 + b 5) b in
          if res >? 0
          then (put (put b1 4 (Z.land (Z.shiftr res 8) 0xFF)) 5 (Z.land res 0xFF), s32 (res + 6))
          else (b1, Z.of_nat (length msg))
      | None => error_akn net_id pidx ERR_WRONG_SERVICE b
      end
  end.

(** The bytes offered to [sendall] (its loop does nothing for a count below 1). *)
Definition answer_bytes (r : mem * Z) : list Z :=
  map (fun k => fst r (Z.of_nat k)) (seq 0 (Z.to_nat (snd r))).

(** ** Watching the link to the server, lcm:268-292 *)

(** [ok]: glob_cmctr_ok; the result tells whether the alarm is raised (Some true),
    cleared (Some false) or left alone. *)
Definition watch_link (W now last : Z) (ok : bool) : bool * option bool :=
  if get_delta_millisec W now last >? 5000
  then (false, if ok then Some true else None)
  else (true, if ok then None else Some false).
