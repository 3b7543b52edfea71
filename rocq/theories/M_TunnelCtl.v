(* Model: the control stream of a tunnel: dispatch of its messages, and the keep-alive of the server.
   Files: /repo/pkg/network/tunnel/common/messagehandler.go, messagehandler_registry.go, api/message.go, server/stream.go.

   Time is a number of milliseconds.  Simplified: a field of a message is present or absent (null is not modelled); the accesses to lastPong and
   keepaliveTimer, which no lock protects, are atomic. *)
From Coq Require Import String List Bool ZArith.
Import ListNotations.
Open Scope Z_scope.

(* ---- messages: api/message.go:25-33 ---- *)
Record message := mkmsg { m_id : string; m_type : string; m_data : string }.
(* a JSON object on the wire: the fields it has *)
Record wire := mkwire { w_id : option string; w_type : option string; w_data : option string }.
Definition zero_msg : message := mkmsg "" "" "".
Definition over (o : option string) (d : string) : string := match o with Some x => x | None => d end.
(* json.Decode leaves alone what the object does not have *)
Definition decode_into (m : message) (w : wire) : message := mkmsg (over (w_id w) (m_id m)) (over (w_type w) (m_type m)) (over (w_data w) (m_data m)).
(* omitempty *)
Definition field (x : string) : option string := if String.eqb x "" then None else Some x.
Definition encode (m : message) : wire := mkwire (field (m_id m)) (field (m_type m)) (field (m_data m)).
(* api/message.go:94-126: the id is a random UUID, data the JSON of the payload; both are never empty *)
Definition create_message (uuid type payload_json : string) : message := mkmsg uuid type payload_json.

(* what the decoder finds on the stream *)
Inductive item := Obj (w : wire) | Bad (e : string).
(* messagehandler.go:46-65.  The goroutines that are started, in order, and the result: None after io.EOF *)
Fixpoint handle (m : message) (input : list item) : list message * option string :=
  match input with
  | [] => ([], None)
  | Bad e :: _ => ([], Some e)
  | Obj w :: r => let m' := decode_into m w in let '(ms, res) := handle m' r in (m' :: ms, res)
  end.
Definition Handle (input : list item) : list message * option string := handle zero_msg input.
(* messagehandler_registry.go:40-52: the last handler added for a type; None: ErrInvalidMessageType *)
Definition registry (H : Type) : Type := list (string * H).
Definition add_handler {H} (r : registry H) (type : string) (h : H) : registry H := (type, h) :: r.
Definition handler_of {H} (r : registry H) (type : string) : option H :=
  match find (fun p => String.eqb (fst p) type) r with Some p => Some (snd p) | None => None end.
(* what was handled when the goroutines have all run, in the order in which they ran: [ms] permuted *)
Definition handled {H} (r : registry H) (ms : list message) : list (H * message) :=
  flat_map (fun m => match handler_of r (m_type m) with Some h => [(h, m)] | None => [] end) ms.

(* ---- keep-alive: server/stream.go:56-119 ---- *)
Definition PERIOD : Z := 1000.
Record kst := mkk
  { now : Z;
    last : option Z;         (* lastPong; None: the zero time *)
    timer : option Z;        (* when the pending timer fires *)
    running : bool;          (* keepalive has been entered, by the first goroutine or by the timer, and has not armed the next timer yet *)
    shut : bool;             (* the stream is closed *)
    closes : nat;            (* how often keepalive closed it *)
    waiting : list Z;        (* when the pings were sent that are not answered yet, oldest first *)
    pongs : list Z;          (* when answers came *)
    started : Z }.
Definition new_stream (t : Z) : kst := mkk t None None true false 0 [] [] t.
(* 81-119, the rest of keepalive *)
Definition keepalive (timeout : Z) (s : kst) : kst :=
  if timeout =? 0 then mkk (now s) (last s) (timer s) false (shut s) (closes s) (waiting s) (pongs s) (started s)
  else
    let l := match last s with None => now s | Some l => l end in
    if timeout <? now s - l
    then (* Close stops the timer that was armed just before *)
         mkk (now s) (Some l) None false true (S (closes s)) (waiting s) (pongs s) (started s)
    else mkk (now s) (Some l) (Some (now s + PERIOD)) false (shut s) (closes s) (if shut s then waiting s else waiting s ++ [now s]) (pongs s) (started s).
Inductive kev := Pass (d : Z) | Fire | Run | Pong | CloseIt.
(* late: how late a timer or a goroutine may be; rtt: how long a peer takes to answer, None: for ever *)
Definition in_time (late : Z) (rtt : option Z) (s : kst) (t : Z) : Prop :=
  match timer s with Some f => t <= f + late | None => True end /\
  (running s = true -> t <= now s) /\
  (shut s = false -> match rtt, waiting s with Some r, p :: _ => t <= p + r | _, _ => True end).
Inductive kstep (timeout late : Z) (rtt : option Z) (s : kst) : kev -> kst -> Prop :=
| KPass : forall d, 0 < d -> in_time late rtt s (now s + d) -> kstep timeout late rtt s (Pass d) (mkk (now s + d) (last s) (timer s) (running s) (shut s) (closes s) (waiting s) (pongs s) (started s))
| KFire : forall f, timer s = Some f -> f <= now s -> running s = false -> kstep timeout late rtt s Fire (mkk (now s) (last s) None true (shut s) (closes s) (waiting s) (pongs s) (started s))
| KRun : running s = true -> kstep timeout late rtt s Run (keepalive timeout s)
(* 121-127: an answer to the oldest ping *)
| KPong : forall p r, waiting s = p :: r -> shut s = false -> kstep timeout late rtt s Pong (mkk (now s) (Some (now s)) (timer s) (running s) (shut s) (closes s) r (pongs s ++ [now s]) (started s))
(* 71-79: by the session.  A keepalive that is running arms its timer afterwards *)
| KClose : kstep timeout late rtt s CloseIt (mkk (now s) (last s) None (running s) true (closes s) (waiting s) (pongs s) (started s)).
Inductive kreach (timeout late : Z) (rtt : option Z) (t0 : Z) : kst -> Prop :=
| KInit : kreach timeout late rtt t0 (new_stream t0)
| KNext : forall s e s', kreach timeout late rtt t0 s -> kstep timeout late rtt s e s' -> kreach timeout late rtt t0 s'.
