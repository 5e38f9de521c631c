(** Specification: the Boolean function a gate denotes, independent of the evaluator and the writer. *)
From Verif Require Export Circuit.

(** [gv h l ρ g b]: in heap [h], in the circuit at [l], when input wire [i] carries [ρ i], gate [g] has value [b].
    A module gate carries the value its callee's output [oi] has when callee input [i] carries the value of the i-th argument. *)
Inductive gv (h : heap) : nat -> (N -> option bool) -> N -> bool -> Prop :=
| gv_input l ρ g c w b :
    h_circ h !! l = Some c -> gate_map c !! g = Some (GInput w) -> ρ w = Some b -> gv h l ρ g b
| gv_const l ρ g c b :
    h_circ h !! l = Some c -> gate_map c !! g = Some (GConst b) -> gv h l ρ g b
| gv_not l ρ g c a x :
    h_circ h !! l = Some c -> gate_map c !! g = Some (GNot a) -> gv h l ρ a x -> gv h l ρ g (negb x)
| gv_xor l ρ g c a b x y :
    h_circ h !! l = Some c -> gate_map c !! g = Some (GXor a b) -> gv h l ρ a x -> gv h l ρ b y -> gv h l ρ g (xorb x y)
| gv_and l ρ g c a b x y :
    h_circ h !! l = Some c -> gate_map c !! g = Some (GAnd a b) -> gv h l ρ a x -> gv h l ρ b y -> gv h l ρ g (andb x y)
| gv_or l ρ g c a b x y :
    h_circ h !! l = Some c -> gate_map c !! g = Some (GOr a b) -> gv h l ρ a x -> gv h l ρ b y -> gv h l ρ g (orb x y)
| gv_module l ρ g c il ol ids oi mid s l' c' o bits b :
    h_circ h !! l = Some c -> gate_map c !! g = Some (GModule il ol ids oi mid) ->
    h_stor h !! c_storage c = Some s -> module_map s !! mid = Some l' -> h_circ h !! l' = Some c' ->
    output_map c' !! oi = Some o ->
    Forall2 (gv h l ρ) ids bits ->
    gv h l' (fun i => bits !! N.to_nat i) o b ->
    gv h l ρ g b.

(** Output wire [k] of the circuit at [l] has value [b]. *)
Definition outv (h : heap) (l : nat) (ρ : N -> option bool) (k : N) (b : bool) : Prop :=
  exists c o, h_circ h !! l = Some c /\ output_map c !! k = Some o /\ gv h l ρ o b.

(** Input wires carrying a list of bits. *)
Definition env_of (inputs : list bool) : N -> option bool := fun i => inputs !! N.to_nat i.

(** The circuit at [l] has exactly the outputs [outs] on [inputs]. *)
Definition computes (h : heap) (l : nat) (inputs outs : list bool) : Prop :=
  exists c, h_circ h !! l = Some c /\ N.of_nat (length outs) = output_len c /\
    forall k b, outs !! k = Some b -> outv h l (env_of inputs) (N.of_nat k) b.
