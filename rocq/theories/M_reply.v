(** Replies as texts: Response.json(). *)
From Verif Require Export M_loads M_services.

(** What is received: a status and a text *)
Class Wire (E : Type) := {
  raw_get : pystr -> list (pystr * pystr) -> option Z -> IO E (Z * pystr);
  raw_post : pystr -> content -> option Z -> IO E (Z * pystr);
  raw_rpc : pystr -> pystr -> list json -> option Z -> IO E (Z * pystr);
  raw_time : IO E Z
}.

(** repo: bit/network/services.py, fees.py and rates.py take replies apart with
    Response.text and Response.json(), e.g. bit/network/services.py:99-104, 122, 146.
    requests decodes the text; json() is json.loads of it, and its JSONDecodeError,
    of which there are several classes, is a ValueError in all of them. *)
Definition received {FL : Floats} (x : Z * pystr) : Response := mkResp (fst x) (snd x) (loads (snd x)).
Definition reading {FL : Floats} {E} (m : IO E (Z * pystr)) : IO E Response := x <~ m ;; iret (received x).
Definition with_json {FL : Floats} {E} (R : Wire E) : Outside E := {|
  o_get := fun url ps t => reading (raw_get url ps t);
  o_post := fun url ps t => reading (raw_post url ps t);
  o_rpc := fun url m args t => reading (raw_rpc url m args t);
  o_time := raw_time |}.
