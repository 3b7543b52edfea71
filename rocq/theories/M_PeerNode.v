(* Model: the service metadata that the Istio middleware sets on HTTP streams: /repo/pkg/istio/istio_middleware.go, and the FlatBuffers tables that it
   reads for that: /repo/pkg/istio/fb/FlatNode.go, KeyVal.go, over the accessors of github.com/google/flatbuffers/go (Table.Offset, Indirect,
   ByteVector, Vector, VectorLen), which are written out here.

   Offsets are uint32 and wrap.  None is a panic (an index or a slice out of range).  A slice of the buffer may reach beyond its length up to its
   capacity; the [extra] bytes there are zero, as in a []byte made of a string. *)
From Coq Require Import String List Ascii Bool Arith ZArith.
From Verif Require Import M_GoStr.
Import ListNotations.
Open Scope list_scope.
Open Scope Z_scope.

Definition byte_at (b : gstr) (p : Z) : Z := Z.of_nat (nat_of_ascii (nth (Z.to_nat p) b "000"%char)).
Definition wrap (x : Z) : Z := x mod 2 ^ 32.
(* GetUOffsetT(b[p:]), GetVOffsetT, GetSOffsetT *)
Definition get32 (b : gstr) (p : Z) : option Z :=
  if p + 4 <=? Z.of_nat (length b) then Some (byte_at b p + 2 ^ 8 * byte_at b (p + 1) + 2 ^ 16 * byte_at b (p + 2) + 2 ^ 24 * byte_at b (p + 3)) else None.
Definition get16 (b : gstr) (p : Z) : option Z := if p + 2 <=? Z.of_nat (length b) then Some (byte_at b p + 2 ^ 8 * byte_at b (p + 1)) else None.
Definition obind {A B} (x : option A) (f : A -> option B) : option B := match x with Some a => f a | None => None end.
(* a table is its position.  SOffsetT arithmetic is modulo 2^32 too *)
Definition voffset (b : gstr) (pos k : Z) : option Z :=
  obind (get32 b pos) (fun s => let vt := wrap (pos - s) in obind (get16 b vt) (fun size => if k <? size then get16 b (wrap (vt + k)) else Some 0)).
(* b[start:end], with the capacity as the limit *)
Definition slice (b : gstr) (extra : nat) (s e : Z) : option gstr :=
  if (s <=? e) && (e <=? Z.of_nat (length b + extra)) then Some (firstn (Z.to_nat (e - s)) (skipn (Z.to_nat s) (b ++ repeat "000"%char extra))) else None.
Definition byte_vector (b : gstr) (extra : nat) (off : Z) : option gstr :=
  obind (get32 b off) (fun r => let o := wrap (off + r) in let start := wrap (o + 4) in obind (get32 b o) (fun n => slice b extra start (wrap (start + n)))).
Definition indirect (b : gstr) (off : Z) : option Z := obind (get32 b off) (fun r => Some (wrap (off + r))).
Definition vector_len (b : gstr) (pos o : Z) : option Z := let off := wrap (o + pos) in obind (get32 b off) (fun r => get32 b (wrap (off + r))).
Definition vector (b : gstr) (pos o : Z) : option Z := let off := wrap (o + pos) in obind (get32 b off) (fun r => Some (wrap (wrap (off + r) + 4))).
(* FlatNode.go:36-50, KeyVal.go:36-50: a string field; nil if it is absent *)
Definition str_field (b : gstr) (extra : nat) (pos k : Z) : option gstr :=
  obind (voffset b pos k) (fun o => if o =? 0 then Some [] else byte_vector b extra (wrap (o + pos))).
(* FlatNode.go:16-21 *)
Definition root (b : gstr) : option Z := get32 b 0.
Definition namespace (b : gstr) (extra : nat) (pos : Z) : option gstr := str_field b extra pos 6.
(* FlatNode.go:52-70; the label at j *)
Definition labels_length (b : gstr) (pos : Z) : option Z := obind (voffset b pos 8) (fun o => if o =? 0 then Some 0 else vector_len b pos o).
Definition label (b : gstr) (pos j : Z) : option (option Z) :=
  obind (voffset b pos 8) (fun o => if o =? 0 then Some None else obind (vector b pos o) (fun x => obind (indirect b (wrap (x + wrap (j * 4)))) (fun t => Some (Some t)))).
(* istio_middleware.go:62-68: the map of labels; later ones overwrite *)
Fixpoint labels_from (b : gstr) (extra : nat) (pos : Z) (n : nat) (j : Z) (m : list (gstr * gstr)) : option (list (gstr * gstr)) :=
  match n with
  | O => Some m
  | S k => obind (label b pos j) (fun t => match t with
      | None => labels_from b extra pos k (j + 1) m
      | Some t => obind (str_field b extra t 4) (fun key => obind (str_field b extra t 6) (fun v => labels_from b extra pos k (j + 1) ((key, v) :: m)))
      end)
  end.
Definition get_label (k : gstr) (m : list (gstr * gstr)) : gstr := match find (fun p => geqb (fst p) k) m with Some p => snd p | None => [] end.

(* ---- the middleware ---- *)
(* a property: a string, or anything else with the text that %s makes of it *)
Inductive value := VStr (s : gstr) | VOther (text : gstr).
Definition text_of (v : value) : gstr := match v with VStr s => s | VOther t => t end.
Definition props := gstr -> option value.
Definition set (k : gstr) (v : gstr) (p : props) : props := fun x => if geqb x k then Some (VStr v) else p x.
Definition service_name : gstr := lit "cluster_metadata.filter_metadata.istio.services.0.name".
Definition service_host : gstr := lit "cluster_metadata.filter_metadata.istio.services.0.host".
Definition canonical : gstr := lit "service.istio.io/canonical-name".
Definition host_of (name ns : gstr) : gstr := name ++ lit "." ++ ns ++ lit ".svc.cluster.local".
Definition k_label : gstr := lit "node.metadata.LABELS.service\.istio\.io/canonical-name".
Definition k_ns : gstr := lit "node.metadata.NAMESPACE".
Definition k_peer : gstr := lit "upstream_peer".
(* istio_middleware.go:37-51 BeforeRequest *)
Definition before_request (inbound : bool) (p : props) : props :=
  if negb inbound then p
  else match p k_label with
  | None => p
  | Some v =>
      let p1 := match v with VStr s => set service_name s p | VOther _ => p end in
      match p1 k_ns with Some n => set service_host (host_of (text_of v) (text_of n)) p1 | None => p1 end
  end.
(* istio_middleware.go:53-74 AfterResponse; None: panic *)
Definition after_response (outbound : bool) (extra : nat) (p : props) : option props :=
  if negb outbound then Some p
  else match p k_peer with
  | Some (VStr b) =>
      obind (root b) (fun pos => obind (labels_length b pos) (fun n => obind (labels_from b extra pos (Z.to_nat n) 0 []) (fun m => obind (namespace b extra pos) (fun ns =>
        Some (set service_host (host_of (get_label canonical m) ns) (set service_name (get_label canonical m) p))))))
  | _ => Some p
  end.
