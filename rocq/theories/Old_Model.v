(** * Model of three older readers of data: who is active in a diary of the German time
      use survey (demod/datasets/GermanTOU/parser.py:1340-1504), the transition matrices of
      the older CREST simulators (demod/simulators/crest_simulators.py:39-88), and the
      weather of Open Power System Data (demod/datasets/OpenPowerSystems/loader.py:44-77). *)

From Coq Require Import String List ZArith QArith Bool Arith.
From Verif Require Import Prelude Sampling_Model Appliance_Model Parse_Model GTou_Model Crest_Model Heat_Model Conf_Model.
Import ListNotations.
Open Scope string_scope.

(** Lines 1350-1501: the dictionary of the codes. *)
Definition activity_codes : list (Z * Z) :=
  [(110, 0); (120, 1); (131, 1); (132, 0); (139, 1); (210, 1); (220, 1); (230, 1); (241, 1); (242, 1); (243, 1); (244, 1); (245, 1); (249, 1);
   (311, 1); (312, 1); (313, 1); (314, 1); (315, 1); (317, 1); (319, 1); (321, 1); (329, 1); (330, 1); (341, 1); (349, 1); (353, 1); (354, 1);
   (361, 1); (362, 1); (363, 1); (364, 1); (369, 1); (411, 1); (412, 1); (413, 1); (414, 1); (419, 1); (421, 1); (422, 1); (423, 1); (429, 1);
   (431, 1); (432, 1); (433, 1); (434, 1); (439, 1); (441, 1); (442, 1); (443, 1); (444, 1); (445, 1); (446, 1); (449, 1); (451, 1); (452, 1);
   (453, 1); (454, 1); (455, 1); (459, 1); (461, 1); (464, 1); (465, 1); (466, 1); (469, 1); (471, 1); (472, 1); (473, 1); (474, 1); (475, 1);
   (476, 1); (479, 1); (480, 1); (491, 1); (492, 1); (499, 1); (510, 1); (520, 1); (531, 1); (532, 1); (539, 1); (611, 1); (612, 1); (621, 1);
   (622, 1); (623, 1); (624, 1); (625, 1); (626, 1); (627, 1); (629, 1); (630, 1); (641, 1); (642, 1); (649, 1); (711, 1); (712, 1); (713, 1);
   (715, 1); (716, 1); (717, 1); (719, 1); (730, 1); (740, 1); (752, 1); (759, 1); (761, 1); (762, 1); (763, 1); (769, 1); (790, 1); (811, 1);
   (812, 1); (813, 1); (814, 1); (815, 1); (819, 1); (820, 1); (830, 1); (841, 1); (842, 1); (843, 1); (844, 1); (849, 1); (921, 1); (922, 1);
   (923, 1); (929, 1); (931, 1); (934, 1); (939, 1); (941, 1); (945, 1); (946, 1); (947, 1); (948, 1); (949, 1); (951, 1); (952, 1); (953, 1);
   (959, 1); (961, 1); (962, 1); (969, 1); (970, 1); (980, 1); (991, 1); (992, 1); (997, 1); (998, 1); (999, 1)]%Z.

(** [states_to_activity], lines 1340-1504. *)
Definition states_to_activity (states : list (list Z)) : result (list (list Z)) :=
  bind (convert_states Z.compare Z.compare (merge activity_codes) states) (fun '(s, l) => read_labels l s).

(** crest_simulators.py:55-64: the number of residents, an int; any failure of the check
    becomes a TypeError. *)
Definition checked_residents (n : Z) : result nat :=
  if (0 <? n)%Z && (n <=? 6)%Z then Ok (Z.to_nat n) else Err TypeError.

(** Lines 66-76: name of the file in the folder of the older data. *)
Definition tpm_file (n : nat) (day : string) : string :=
  "CREST_Demand_Model_v2.3.3.xlsm - tpm" ++ str_of_nat n ++ "_w" ++ day ++ ".csv".

(** Lines 79-81: [transition\[:, 2:\].reshape((-1, w, w))], rejected when the numbers do not
    fill whole matrices. *)
Definition reshape_all (w : nat) (lines : list (list Q)) : result (list (list (list Q))) :=
  let flat := concat (map (skipn 2) lines) in
  if Nat.eqb (List.length flat mod (w * w)) 0 then Ok (map (chunks w w) (chunks (List.length flat / (w * w)) (w * w) flat)) else Err ValueError.

(** [CREST_data_load_pdf], lines 39-88.  [files] gives the numbers of a file below its ten
    first lines. *)
Definition load_pdf (files : string -> option (list (list Q))) (n : Z) (day : string) (adjust : bool) : result (list (list (list Q))) :=
  bind (checked_residents n) (fun k =>
  match files (tpm_file k day) with
  | None => Err FileNotFoundError
  | Some lines =>
      let w := ((k + 1) * (k + 1))%nat in
      bind (reshape_all w lines) (fun m => if adjust then rescale_3d w (map stay m) else Ok m)
  end).

(** OpenPowerSystems/loader.py:44-77 [_parse_historical_climate_data], the file being
    there: the times, the numbers of the file by heading, and the code of the country
    ([country_name_to_code] is an argument). *)
(** Sum of two numbers, NaN if one of them is. *)
Definition nplus (a b : option Q) : option Q := match a, b with Some x, Some y => Some (x + y) | _, _ => None end.
Record climate := Climate { cl_times : list Z; cl_outside : list (option Q); cl_irradiance : list (option Q) }.
Definition ops_climate (code_of : string -> result string) (country : string) (times : list Z) (df : list (string * list (option Q))) : result climate :=
  bind (code_of country) (fun code =>
  bind (wcol df (code ++ "_temperature")) (fun t =>
  bind (wcol df (code ++ "_radiation_direct_horizontal")) (fun direct =>
  bind (wcol df (code ++ "_radiation_diffuse_horizontal")) (fun diffuse =>
  Ok (Climate times t (map2 nplus diffuse direct)))))).
