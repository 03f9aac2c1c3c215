From Verif Require Import Base UbrDb_Model UbrRec_Model UbrRec_Spec Fmt_Model Json_Spec Fmt_Spec Doc_Model.
Local Open Scope nat_scope.

(* string data: printable characters and a NUL *)
Definition string_data (s d : bytes) : Prop := d = s ++ [NUL] /\ forall c, In c s -> (32 <= byteN c <= 126)%N.
(* how a datum is shown; strings that need escaping are left out *)
Inductive datum (b64 : bytes -> bytes) : bytes -> json -> Prop :=
| D_empty : datum b64 [] (JStr [])
| D_string s d : string_data s d -> plain s -> datum b64 d (JStr s)
| D_binary d : d <> [] -> (forall s, ~ string_data s d) -> datum b64 d (JStr (b64 d)).
(* a record with these parts, as the store has it *)
Definition stored_as (s : stored) (seq flags gen : N) (owner : bytes) (ds : list bytes) : Prop :=
  good_header seq flags gen owner /\ exists h, header_prep seq flags gen owner = Ok h
  /\ match s with Vector v => v = data_prep h ds | Scalar b => exists d, ds = [d] /\ b = List.concat (data_prep h [d]) end.
(* the member for the value of a record *)
Definition value_json (s : stored) (vals : list json) : json := match s with Vector _ => JArr vals | Scalar _ => nth 0 vals JNull end.
Definition flag_names (flags : N) : list bytes :=
  map snd (filter (fun p => N.testbit flags (fst p))
    [(0%N, B "AL"); (1%N, B "SC"); (2%N, B "PS"); (3%N, B "AR"); (4%N, B "RS"); (5%N, B "FR_RD"); (6%N, B "SB_RD"); (7%N, B "SP_RD"); (8%N, B "FR_WR"); (9%N, B "SB_WR"); (10%N, B "SP_WR")]).
(* a record of the udev namespace: its third part is U *)
Definition in_udev (key : bytes) : Prop := exists op dom rest, ~ In ":"%char op /\ ~ In ":"%char dom /\ key = op ++ B ":" ++ dom ++ B ":U:" ++ rest.
Inductive record_shown (b64 : bytes -> bytes) (i : N) : bytes * stored -> json -> Prop :=
| Shown pre key s seq flags gen owner ds vals : In pre [[]; B ">"] -> match key with c :: _ => c <> ">"%char | [] => True end -> plain key -> plain owner -> (in_udev key -> match s with Vector _ => False | Scalar _ => True end) ->
  stored_as s seq flags gen owner ds -> Forall2 (datum b64) ds vals ->
  record_shown b64 i (pre ++ key, s) (JObj ([(B "RECORD", JInt (Z.of_N i)); (B "key", JStr key); (B "gennum", JInt (Z.of_N gen)); (B "seqnum", JInt (Z.of_N seq));
    (B "flags", JArr (map JStr (flag_names flags))); (B "owner", JStr owner); (match s with Vector _ => B "values" | Scalar _ => B "value" end, value_json s vals)])).
Inductive records_shown (b64 : bytes -> bytes) : N -> list (bytes * stored) -> list json -> Prop :=
| Rs_none i : records_shown b64 i [] []
| Rs_more i r rs j js : record_shown b64 i r j -> records_shown b64 (i + 1) rs js -> records_shown b64 i (r :: rs) (j :: js).
(* lists the dump separates properly: the first item is empty or a string, the others are not empty *)
Definition separated (s : stored) : Prop :=
  forall seq flags gen owner ds, stored_as s seq flags gen owner ds -> match s with
  | Scalar _ => True
  | Vector _ => match ds with [] => True | d :: ds => (d = [] \/ exists t, string_data t d) /\ ~ In [] ds end
  end.
(* The list of devices: records of one device, all with its id in their keys *)
Definition dev_key (devid cat id core : bytes) : bytes := B "::D:" ++ devid ++ B ":" ++ cat ++ B ":" ++ id ++ B ":" ++ core.
Inductive field_shown (b64 : bytes -> bytes) (core : bytes) : stored -> list (bytes * json) -> Prop :=
| Fd_group s seq flags gen owner ds vals : In core [B "#GIN"; B "#GMB"] -> stored_as s seq flags gen owner ds -> (match s with Scalar _ => N.testbit flags 0 = false | _ => True end) ->
  Forall2 (datum b64) ds vals -> field_shown b64 core s [(core, value_json s vals)]
| Fd_ready b seq flags gen owner n name : core = B "#RDY" -> stored_as (Scalar b) seq flags gen owner [le 4 n] ->
  nth_error [B "RDY_UNDEFINED"; B "RDY_REMOVED"; B "RDY_UNPROCESSED"; B "RDY_UNCONFIGURED"; B "RDY_UNINITIALIZED"; B "RDY_PRIVATE"; B "RDY_FLAT"; B "RDY_UNAVAILABLE"; B "RDY_PUBLIC"] (N.to_nat n) = Some name ->
  field_shown b64 core (Scalar b) [(core, JStr name)]
| Fd_reserved b seq flags gen owner n name : core = B "#RES" -> stored_as (Scalar b) seq flags gen owner [le 4 n] ->
  nth_error [B "RES_UNDEFINED"; B "RES_UNPROCESSED"; B "RES_RESERVED"; B "RES_USED"; B "RES_FREE"] (N.to_nat n) = Some name ->
  field_shown b64 core (Scalar b) [(core, JStr name)]
| Fd_other s : ~ In core [B "#GIN"; B "#GMB"; B "#RDY"; B "#RES"] -> field_shown b64 core s [].
Inductive dev_records (b64 : bytes -> bytes) (devid : bytes) : list (bytes * stored) -> list (bytes * json) -> Prop :=
| Dr_none : dev_records b64 devid [] []
| Dr_more cat id core s rs fs fs' : ~ In ":"%char cat -> ~ In ":"%char id -> field_shown b64 core s fs -> dev_records b64 devid rs fs' ->
  dev_records b64 devid ((dev_key devid cat id core, s) :: rs) (fs ++ fs').
(* the devices one after the other, no two neighbours the same *)
Inductive devices_shown (b64 : bytes -> bytes) : option bytes -> list (bytes * stored) -> list json -> Prop :=
| Ds_none p : devices_shown b64 p [] []
| Ds_more p devid r rs fs rest js : devid <> [] -> length devid <= 36 -> ~ In ":"%char devid -> plain devid -> p <> Some devid ->
  dev_records b64 devid (r :: rs) fs -> devices_shown b64 (Some devid) rest js ->
  devices_shown b64 p ((r :: rs) ++ rest) (JObj ((B "DEVID", JStr devid) :: fs) :: js).
(* the lists of groups among the records are separated properly *)
Definition groups_separated (rs : list (bytes * stored)) : Prop :=
  forall devid cat id core s, In (dev_key devid cat id core, s) rs -> ~ In ":"%char devid -> ~ In ":"%char cat -> ~ In ":"%char id -> In core [B "#GIN"; B "#GMB"] -> separated s.
(* the first record is a ready or reserved state *)
Definition begins_with_state (rs : list (bytes * stored)) : Prop :=
  exists devid cat id core s rest, rs = (dev_key devid cat id core, s) :: rest /\ ~ In ":"%char devid /\ ~ In ":"%char cat /\ ~ In ":"%char id /\ In core [B "#RDY"; B "#RES"].

(* The resource tree *)
Definition plain_opt (t : option bytes) : Prop := match t with Some t => plain t | None => True end.
Inductive tree_shown : rtree -> json -> Prop :=
| Ts id type es pid flags prio refs children js : plain id -> plain_opt type -> (forall n a b, In (n, a, b) es -> plain n) -> trees_shown children js ->
  tree_shown (RTree id type es pid flags prio refs children)
    (JObj ([(B "ID", JStr id)] ++ match type with Some t => [(B "type", JStr t)] | None => [] end
      ++ (if match es with [] => true | _ => false end then [] else
          [(B "event-sources", JArr (map (fun '(n, a, b) => JObj [(B "name", JStr n); (B "events_max", JInt (Z.of_N a)); (B "events_fired", JInt (Z.of_N b))]) (rev es)))])
      ++ [(B "pid-created", JInt (Z.of_N pid)); (B "flags", JInt (Z.of_N flags)); (B "prio", JInt prio); (B "ref-count", JInt (Z.of_N refs))]
      ++ (if match children with [] => true | _ => false end then [] else [(B "children", JArr js)])))
with trees_shown : list rtree -> list json -> Prop :=
| Tss_none : trees_shown [] []
| Tss_more t ts j js : tree_shown t j -> trees_shown ts js -> trees_shown (t :: ts) (j :: js).
