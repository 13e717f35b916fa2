(** The repository's unit tests, evaluated on the model: not properties, but a check that
    the model computes what the code is known to compute.  Tests whose text no longer
    compiles against the crate (src/xml/test.rs, src/opl/test.rs) are taken as far as
    they state a result of a function that is modelled. *)
From Coq Require Import String ZArith List Bool.
From Verif Require Import Base Ints Timestamp Obj Coord Utf8 XmlWrite XmlToken XmlRead NodeChain.
From Verif Require Opl.
Import ListNotations.
Open Scope Z_scope.

(** ** src/tests.rs *)

(** char_to_objtype, string_to_objtype, src/tests.rs:4-24 *)
Example char_to_objtype : map objtype_of_char (lit "nwrx") = [Some TNode; Some TWay; Some TRelation; None].
Proof. reflexivity. Qed.
Example string_to_objtype : map objtype_of_str (map lit ["n"; "node"; "w"; "way"; "r"; "relation"; "rel"; " "]%string)
  = [Some TNode; Some TNode; Some TWay; Some TWay; Some TRelation; Some TRelation; Some TRelation; None].
Proof. reflexivity. Qed.

(** timestamp_format, src/tests.rs:26-87 *)
Definition cmp_parsed (a b : string) : option comparison :=
  match timestamp_from_str (lit a), timestamp_from_str (lit b) with
  | Some x, Some y => Some (timestamp_cmp x y)
  | _, _ => None
  end.
Example timestamps_ints : map (fun '(a, b) => timestamp_cmp (EpochNumber a) (EpochNumber b)) [(0, 0); (0, 1); (3, 1)] = [Eq; Lt; Gt].
Proof. reflexivity. Qed.
Example timestamps_isos :
  cmp_parsed "2020-01-01T00:00:00Z" "2020-01-01T00:00:00Z" = Some Eq
  /\ cmp_parsed "2010-01-01T00:00:00Z" "2020-01-01T00:00:00Z" = Some Lt
  /\ cmp_parsed "2020-01-01T00:00:00Z" "2000-01-01T00:00:00Z" = Some Gt.
Proof. repeat split; vm_compute; reflexivity. Qed.
Example timestamps_int_iso :
  opt_map (timestamp_cmp (EpochNumber 1577836800)) (timestamp_from_str (lit "2020-01-01T00:00:00Z")) = Some Eq
  /\ timestamp_cmp (EpochNumber 1577836800) (ISOString (lit "2020-01-01T00:00:00Z")) = Eq
  /\ timestamp_cmp (ISOString (lit "2020-01-01T00:00:00Z")) (EpochNumber 1577836800) = Eq.
Proof. repeat split; vm_compute; reflexivity. Qed.

(** Every object of a file: the calls of next up to the first None. *)
Fixpoint objects (fuel : nat) (l : list item) : outcome (list sobj) :=
  match fuel with
  | O => Panic
  | S f => do x <- xml_next l;
           match fst x with
           | None => Ret []
           | Some o => do r <- objects f (snd x); Ret (o :: r)
           end
  end.
Definition read_file (t : string) : outcome (list sobj) := objects 1000 (xml_items (fun c => c) (lit t)).
Definition ways (t : string) : outcome (list (bool * bool)) :=
  do os <- read_file t;
  Ret (flat_map (fun o => match o with SWay w => [(is_closed w, is_area w)] | _ => [] end) os).

(** area_ways, src/tests.rs:89-164 *)
Example not_closed_input : ways "<?xml version=""1.0"" encoding=""utf-8""?>
        <osm version=""0.6"" generator=""osmio/0.4.0"">\
        <node id=""1"" lat=""0"" lon=""0"" />
        <node id=""2"" lat=""1"" lon=""0"" />
        <node id=""3"" lat=""1"" lon=""1"" />
        <way id=""1"">
            <nd ref=""1"" />
            <nd ref=""2"" />
            <nd ref=""3"" />
        </way>
        </osm>" = Ret [(false, false)].
Proof. vm_compute. reflexivity. Qed.
Example closed_area_input : ways "<?xml version=""1.0"" encoding=""utf-8""?>
        <osm version=""0.6"" generator=""osmio/0.4.0"">\
        <node id=""1"" lat=""0"" lon=""0"" />
        <node id=""2"" lat=""1"" lon=""0"" />
        <node id=""3"" lat=""1"" lon=""1"" />
        <way id=""1"">
            <nd ref=""1"" />
            <nd ref=""2"" />
            <nd ref=""3"" />
            <nd ref=""1"" />
        </way>
        </osm>" = Ret [(true, true)].
Proof. vm_compute. reflexivity. Qed.
Example closed_nonarea_input : ways "<?xml version=""1.0"" encoding=""utf-8""?>
        <osm version=""0.6"" generator=""osmio/0.4.0"">\
        <node id=""1"" lat=""0"" lon=""0"" />
        <node id=""2"" lat=""1"" lon=""0"" />
        <node id=""3"" lat=""1"" lon=""1"" />
        <way id=""1"">
            <nd ref=""1"" />
            <nd ref=""2"" />
            <nd ref=""3"" />
            <nd ref=""1"" />
            <tag k=""area"" v=""no"" />
        </way>
        </osm>" = Ret [(true, false)].
Proof. vm_compute. reflexivity. Qed.
Example closed_explicit_area_input : ways "<?xml version=""1.0"" encoding=""utf-8""?>
        <osm version=""0.6"" generator=""osmio/0.4.0"">\
        <node id=""1"" lat=""0"" lon=""0"" />
        <node id=""2"" lat=""1"" lon=""0"" />
        <node id=""3"" lat=""1"" lon=""1"" />
        <way id=""1"">
            <nd ref=""1"" />
            <nd ref=""2"" />
            <nd ref=""3"" />
            <nd ref=""1"" />
            <tag k=""area"" v=""yes"" />
        </way>
        </osm>" = Ret [(true, true)].
Proof. vm_compute. reflexivity. Qed.

(** ** src/xml/mod.rs *)

(** escape1 to escape8, src/xml/mod.rs:553-563 *)
Definition escaped_as (s t : string) : Prop := write_xml_escaped (lit s) (Sink [] None) = (Sink (utf8 (lit t)) None, WOk tt).
Example escape1 : escaped_as "foo" "foo".
Proof. vm_compute. reflexivity. Qed.
Example escape2 : escaped_as "&foo" "&amp;foo".
Proof. vm_compute. reflexivity. Qed.
Example escape3 : escaped_as "foo bar" "foo bar".
Proof. vm_compute. reflexivity. Qed.
Example escape4 : escaped_as "foo
bar" "foo
bar".
Proof. vm_compute. reflexivity. Qed.
Example escape5 : escaped_as "&&foo" "&amp;&amp;foo".
Proof. vm_compute. reflexivity. Qed.
Example escape6 : escaped_as "&ergio" "&amp;ergio".
Proof. vm_compute. reflexivity. Qed.
Example escape7 : escaped_as "foo & bar" "foo &amp; bar".
Proof. vm_compute. reflexivity. Qed.
Example escape8 : escaped_as "foo & bar "" ' <whoop>" "foo &amp; bar &quot; &apos; &lt;whoop&gt;".
Proof. vm_compute. reflexivity. Qed.

(** node1, src/xml/mod.rs:579-597: write, close, drop.  The document ends with two end
    tags. *)
Example node1 : fst (run_calls (xml_call (fun l => l)) (new_writer None)
    [CWrite (SNode (SN (Meta 1 (Some 2) false (Some 1) (Some (EpochNumber 700)) (Some 1) (Some (lit "&foo"))) [] (Some (0, 0)))); CClose; CClose])
  = Writer (Sink (utf8 (lit "<?xml version=""1.0"" encoding=""utf-8""?>
<osm version=""0.6"" generator=""osmio/" ++ crate_version ++ lit """>
	<node id=""1"" visible=""true"" version=""2"" user=""&amp;foo"" uid=""1"" changeset=""1"" timestamp=""1970-01-01T00:11:40Z"" lat=""0"" lon=""0"" />
</osm>
</osm>")) None) [] Closed.
Proof. vm_compute. reflexivity. Qed.

(** ** src/xml/test.rs *)

(** test_parsing1, src/xml/test.rs:12-48 *)
Example test_parsing1 : read_file "<?xml version=""1.0"" encoding=""UTF-8""?>
<osm version=""0.6"" generator=""CGImap 0.0.2"">
<bounds minlat=""54.0889580"" minlon=""12.2487570"" maxlat=""54.0913900"" maxlon=""12.2524800""/>
<node id=""298884269"" lat=""54.0901746"" lon=""12.2482632"" user=""SvenHRO"" uid=""46882"" visible=""true"" version=""1"" changeset=""676636"" timestamp=""2008-09-21T21:37:45Z""><tag k=""mytag"" v=""myvalue""/></node></osm>"
  = Ret [SNode (SN (Meta 298884269 (Some 1) false (Some 676636) (Some (ISOString (lit "2008-09-21T21:37:45Z"))) (Some 46882) (Some (lit "SvenHRO")))
                   [(lit "mytag", lit "myvalue")] (Some (540901746, 122482632)))].
Proof. vm_compute. reflexivity. Qed.


(** test_parsing2, src/xml/test.rs:50-140 *)
Definition sample2 : string := "<?xml version=""1.0"" encoding=""UTF-8""?>
<osm version=""0.6"" generator=""CGImap 0.0.2"">
 <bounds minlat=""54.0889580"" minlon=""12.2487570"" maxlat=""54.0913900"" maxlon=""12.2524800""/>
 <node id=""298884269"" lat=""54.0901746"" lon=""12.2482632"" user=""SvenHRO"" uid=""46882"" visible=""true"" version=""1"" changeset=""676636"" timestamp=""2008-09-21T21:37:45Z""/>
 <node id=""261728686"" lat=""54.0906309"" lon=""12.2441924"" user=""PikoWinter"" uid=""36744"" visible=""true"" version=""1"" changeset=""323878"" timestamp=""2008-05-03T13:39:23Z""/>
 <node id=""1831881213"" version=""1"" changeset=""12370172"" lat=""54.0900666"" lon=""12.2539381"" user=""lafkor"" uid=""75625"" visible=""false"" timestamp=""2012-07-20T09:43:19Z"">
  <tag k=""name"" v=""Neu Broderstorf""/>
  <tag k=""traffic_sign"" v=""city_limit""/>
 </node>
 <node id=""298884272"" lat=""54.0901447"" lon=""12.2516513"" user=""SvenHRO"" uid=""46882"" visible=""true"" version=""1"" changeset=""676636"" timestamp=""2008-09-21T21:37:45Z""/>
 <way id=""26659127"" user=""Masch"" uid=""55988"" visible=""true"" version=""5"" changeset=""4142606"" timestamp=""2010-03-16T11:47:08Z"">
  <nd ref=""292403538""/>
  <nd ref=""298884289""/>
  <nd ref=""261728686""/>
  <tag k=""highway"" v=""unclassified""/>
  <tag k=""name"" v=""Pastower Straße""/>
 </way>
 <relation id=""56688"" user=""kmvar"" uid=""56190"" visible=""true"" version=""28"" changeset=""6947637"" timestamp=""2011-01-12T14:23:49Z"">
  <member type=""node"" ref=""294942404"" role=""""/>
  <member type=""node"" ref=""364933006"" role=""""/>
  <member type=""way"" ref=""4579143"" role=""""/>
  <member type=""node"" ref=""249673494"" role=""""/>
  <tag k=""name"" v=""Küstenbus Linie 123""/>
  <tag k=""network"" v=""VVW""/>
  <tag k=""operator"" v=""Regionalverkehr Küste""/>
  <tag k=""ref"" v=""123""/>
  <tag k=""route"" v=""bus""/>
  <tag k=""type"" v=""route""/>
 </relation>
</osm>
".
Example test_parsing2 :
  exists os, read_file sample2 = Ret os
  /\ map s_type os = [TNode; TNode; TNode; TNode; TWay; TRelation]
  /\ map (fun o => m_id (s_meta o)) (firstn 1 os) = [298884269]
  /\ map (fun o => m_deleted (s_meta o)) os = [false; false; true; false; false; false]
  /\ flat_map (fun o => match o with SWay w => sw_nodes w | _ => [] end) os = [292403538; 298884289; 261728686]
  /\ flat_map (fun o => match o with SRel r => sr_members r | _ => [] end) os
     = [(TNode, 294942404, []); (TNode, 364933006, []); (TWay, 4579143, []); (TNode, 249673494, [])]
  /\ map s_num_tags os = [0; 0; 2; 0; 2; 6]%nat
  /\ map (fun o => s_tag o (lit "highway")) (skipn 4 os) = [Some (lit "unclassified"); None]
  /\ map (fun o => s_tag o (lit "ref")) (skipn 4 os) = [None; Some (lit "123")].
Proof. eexists. split; [vm_compute; reflexivity|]. vm_compute. repeat split. Qed.

(** ** src/test.rs *)

(** test_time, src/test.rs:22-28; its first line does not hold of the code, which writes
    Z for the offset. *)
Example test_time : iso_to_epoch (lit "1970-01-01T00:00:01Z") = 1 /\ iso_to_epoch (lit "1970-01-01T00:00:01+00:00") = 1
  /\ epoch_to_iso 1 = lit "1970-01-01T00:00:01Z".
Proof. repeat split; vm_compute; reflexivity. Qed.

(** ** src/nodechain.rs *)

(** test_encode, test_decode, test_encode_then_decode, src/nodechain.rs:97-131 *)
Example test_encode :
  map (enc_chain true) [[]; [10]; [10; 11]; [10; 9]; [10; 11; 12]; [10; 11; 12; 13]; [10; 256]; [10; 256; 10]]
  = map Ret [[]; [0; 0; 0; 0; 0; 0; 0; 10]; [0; 0; 0; 0; 0; 0; 0; 10; 1]; [0; 0; 0; 0; 0; 0; 0; 10; 255];
             [0; 0; 0; 0; 0; 0; 0; 10; 1; 1]; [0; 0; 0; 0; 0; 0; 0; 10; 1; 1; 1];
             [0; 0; 0; 0; 0; 0; 0; 10; 255; 0; 0; 0; 0; 0; 0; 1; 0];
             [0; 0; 0; 0; 0; 0; 0; 10; 255; 0; 0; 0; 0; 0; 0; 1; 0; 129]].
Proof. vm_compute. reflexivity. Qed.
Example test_decode :
  map (dec_chain true) [[]; [0; 0; 0; 0; 0; 0; 0; 10]; [0; 0; 0; 0; 0; 0; 0; 10; 1];
             [0; 0; 0; 0; 0; 0; 0; 10; 255; 0; 0; 0; 0; 0; 0; 1; 0];
             [0; 0; 0; 0; 0; 0; 0; 10; 255; 0; 0; 0; 0; 0; 0; 1; 0; 129]]
  = map Ret [[]; [10]; [10; 11]; [10; 256]; [10; 256; 10]].
Proof. vm_compute. reflexivity. Qed.
Example test_encode_then_decode :
  map (chain_round true) [[]; [1; 2; 3]; [1; 2; 3; 1000; 2]; [1; 2; 3; 1000; 1]]
  = map Ret [[]; [1; 2; 3]; [1; 2; 3; 1000; 2]; [1; 2; 3; 1000; 1]].
Proof. vm_compute. reflexivity. Qed.

(** ** src/opl/test.rs *)

(** decode_string1, encode_string1, src/opl/test.rs:1-15 *)
Example decode_string1 : Opl.decode_string (lit "hello") = Some (lit "hello")
  /\ Opl.decode_string (lit "hello%20%world") = Some (lit "hello world").
Proof. split; reflexivity. Qed.
Example encode_string1 : Opl.encode_string (lit "hello") = lit "hello"
  /\ Opl.encode_string (lit "hello world") = lit "hello%20%world".
Proof. split; reflexivity. Qed.

(** decode_line_*, src/opl/test.rs:17-139, with the coordinates of the crate. *)
Definition coord (s : str) : option Z := match coord_from_str s with ROk i => Some i | RErr _ => None end.
Definition opl_meta : Opl.ometa := Opl.OM 197801 6 false 10009832 (lit "2011-12-01T17:03:42Z") 20673 (lit "mikefalzon").
Example decode_line_node1 : Opl.decode_line coord coord (lit "n197801 v6 dV c10009832 t2011-12-01T17:03:42Z i20673 umikefalzon Tcreated_by=JOSM x14.2741628 y36.0292900")
  = Ret (Some (Opl.ONode opl_meta [(lit "created_by", lit "JOSM")] (Some 142741628) (Some 360292900))).
Proof. vm_compute. reflexivity. Qed.
Example decode_line_node2 : Opl.decode_line coord coord (lit "n197801 v6 dV c10009832 t2011-12-01T17:03:42Z i20673 umikefalzon T x14.2741628 y36.0292900")
  = Ret (Some (Opl.ONode opl_meta [] (Some 142741628) (Some 360292900))).
Proof. vm_compute. reflexivity. Qed.
Example decode_line_node3 : Opl.decode_line coord coord (lit "n1 v1 dD c9257 t2006-05-10T18:27:47Z i1298 u" ++ [964] ++ lit "12 T x y")
  = Ret (Some (Opl.ONode (Opl.OM 1 1 true 9257 (lit "2006-05-10T18:27:47Z") 1298 ([964] ++ lit "12")) [] None None)).
Proof. vm_compute. reflexivity. Qed.
Example decode_line_node4 : Opl.decode_line coord coord (lit "n1 v1 " ++ [8364] ++ lit " c9257 t2006-05-10T18:27:47Z i1298 u" ++ [964] ++ lit "12 T x y") = Ret None.
Proof. vm_compute. reflexivity. Qed.
Example decode_line_way : Opl.decode_line coord coord (lit "w197801 v6 dV c10009832 t2011-12-01T17:03:42Z i20673 umikefalzon Tcreated_by=JOSM Nn1,n2,n3")
  = Ret (Some (Opl.OWay opl_meta [(lit "created_by", lit "JOSM")] [1; 2; 3])).
Proof. vm_compute. reflexivity. Qed.
Example decode_line_relation : Opl.decode_line coord coord (lit "r197801 v6 dV c10009832 t2011-12-01T17:03:42Z i20673 umikefalzon Tcreated_by=JOSM Mn1@inner,w2@outer")
  = Ret (Some (Opl.ORel opl_meta [(lit "created_by", lit "JOSM")] [(110, 1, lit "inner"); (119, 2, lit "outer")])).
Proof. vm_compute. reflexivity. Qed.

(** test_reader, src/opl/test.rs:141-222, the reading half (OPLWriter::write_obj
    is unimplemented!(), src/opl/mod.rs:62-63). *)
Example test_reader : Opl.opl_objects coord coord (lit "n197801 v6 dV c10009832 t2011-12-01T17:03:42Z i20673 umikefalzon Tcreated_by=JOSM x14.274163 y36.02929
w197801 v6 dV c10009832 t2011-12-01T17:03:42Z i20673 umikefalzon Tcreated_by=JOSM Nn1,n2,n3
r197801 v6 dV c10009832 t2011-12-01T17:03:42Z i20673 umikefalzon Tcreated_by=JOSM Mn1@inner,w2@outer
")
  = Ret [Opl.ONode opl_meta [(lit "created_by", lit "JOSM")] (Some 142741630) (Some 360292900);
         Opl.OWay opl_meta [(lit "created_by", lit "JOSM")] [1; 2; 3];
         Opl.ORel opl_meta [(lit "created_by", lit "JOSM")] [(110, 1, lit "inner"); (119, 2, lit "outer")]].
Proof. vm_compute. reflexivity. Qed.
