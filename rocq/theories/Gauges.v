(** * Gauges: the bundled lists of tide gauges and the csv argument of extract_tidegauge (src/momlevel/tidegauge.py, src/momlevel/resources)

    SIMPLIFICATION: names and positions only; positions are the decimal numbers of the file, not the nearest binary64 numbers. *)
From Coq Require Import Reals ZArith List String.
From Verif Require Import Num Py Arr Util Geo.
Import ListNotations.
Local Open Scope string_scope.

(** Latitude and longitude in millionths of a degree. *)
(** src/momlevel/resources/us_tide_gauges.csv:2-118 *)
Definition us_gauges : list (string * (Z * Z)) := [
   ("ADAK_SWEEPER_COVE", (51860000, -176630000)); ("ALAMEDA", (37770000, -122300000)); ("ANCHORAGE", (61240000, -149890000));
   ("ANNAPOLIS", (38980000, -76480000)); ("APALACHICOLA", (29730000, -84980000)); ("APRA_HARBOR", (13440000, 144650000));
   ("ARENA_COVE", (38910000, -123710000)); ("ASTORIA", (46210000, -123770000)); ("ATLANTIC_CITY", (39350000, -74420000));
   ("BALTIMORE", (39270000, -76580000)); ("BAR_HARBOR", (44390000, -68200000)); ("BAY_WAVELAND_YACHT_CLUB_II", (30330000, -89330000));
   ("BEAUFORT", (34720000, -76670000)); ("BERGEN_POINT", (40640000, -74140000)); ("BOSTON", (42350000, -71050000));
   ("BRIDGEPORT", (41170000, -73180000)); ("CAMBRIDGE_II", (38570000, -76070000)); ("CAPE_MAY", (38970000, -74960000));
   ("CEDAR_KEY_II", (29140000, -83030000)); ("CHARLESTON_I", (32780000, -79920000)); ("CHARLESTON_II", (43340000, -124320000));
   ("CHARLOTTE_AMALIE", (18340000, -64920000)); ("CHERRY_POINT", (48860000, -122760000)); ("CLEARWATER_BEACH", (27980000, -82830000));
   ("CORDOVA", (60560000, -145750000)); ("CORPUS_CHRISTI", (27580000, -97220000)); ("CRESCENT_CITY", (41740000, -124180000));
   ("DAUPHIN_ISLAND", (30250000, -88080000)); ("DUCK_PIER_OUTSIDE", (36180000, -75750000)); ("EASTPORT", (44900000, -66980000));
   ("EUGENE_ISLAND", (29370000, -91390000)); ("FERNANDINA_BEACH", (30670000, -81470000)); ("FORT_MYERS", (26650000, -81870000));
   ("FORT_PULASKI", (32030000, -80900000)); ("FRIDAY_HARBOR", (48550000, -123010000)); ("GALVESTON_II", (29310000, -94790000));
   ("GRAND_ISLE", (29260000, -89960000)); ("HILO", (19730000, -155060000)); ("HONOLULU", (21310000, -157870000));
   ("JUNEAU", (58300000, -134410000)); ("KAHULUI_HARBOR", (20890000, -156480000)); ("KAWAIHAE", (20040000, -155830000));
   ("KETCHIKAN", (55330000, -131620000)); ("KEY_WEST", (24550000, -81810000)); ("KINGS_POINT", (40810000, -73770000));
   ("KIPTOPEKE_BEACH", (37160000, -75990000)); ("KODIAK_ISLAND", (57730000, -152510000)); ("KWAJALEIN", (8730000, 167740000));
   ("LA_JOLLA", (32870000, -117260000)); ("LAKE_WORTH_PIER", (26610000, -80030000)); ("LEWES", (38780000, -75120000));
   ("LEWISETTA", (37990000, -76470000)); ("LIME_TREE_BAY", (17690000, -64750000)); ("LOS_ANGELES", (33720000, -118270000));
   ("MAGUEYES_ISLAND", (17970000, -67050000)); ("MAYPORT", (30400000, -81430000)); ("MAYPORT", (30390000, -81430000));
   ("MIDWAY_ISLAND", (28210000, -177360000)); ("MOKUOLOE_ISLAND", (21430000, -157790000)); ("MONTAUK", (41050000, -71960000));
   ("MONTEREY", (36600000, -121890000)); ("NANTUCKET_ISLAND", (41280000, -70100000)); ("NAPLES", (26130000, -81810000));
   ("NAWILIWILI_BAY", (21950000, -159350000)); ("NEAH_BAY", (48370000, -124610000)); ("NEWPORT", (41510000, -71330000));
   ("NEW_YORK", (40700000, -74010000)); ("NIKISKI", (60680000, -151400000)); ("NOME", (64500000, -165430000));
   ("N_SPIT", (40770000, -124220000)); ("OCEAN_CITY_INLET", (38330000, -75090000)); ("OREGON_INLET_MARINA", (35800000, -75550000));
   ("PADRE_ISLAND", (26070000, -97150000)); ("PENSACOLA", (30400000, -87210000)); ("PHILADELPHIA", (39930000, -75140000));
   ("POINT_REYES", (37990000, -122980000)); ("PORT_ANGELES", (48120000, -123440000)); ("PORT_CHICAGO", (38050000, -122040000));
   ("PORT_ISABEL", (26060000, -97220000)); ("PORTLAND", (43660000, -70250000)); ("PORT_ORFORD", (42740000, -124500000));
   ("PORT_TOWNSEND", (48110000, -122760000)); ("PROVIDENCE", (41810000, -71400000)); ("REDWOOD_CITY", (37510000, -122210000));
   ("REEDY_POINT", (39560000, -75570000)); ("ROCKPORT", (28020000, -97050000)); ("SAN_DIEGO", (32710000, -117170000));
   ("SAND_POINT", (55340000, -160500000)); ("SANDY_HOOK", (40470000, -74010000)); ("SAN_FRANCISCO", (37810000, -122470000));
   ("SAN_JUAN", (18460000, -66110000)); ("SANTA_BARBARA", (34410000, -119690000)); ("SANTA_MONICA", (34010000, -118500000));
   ("SEATTLE", (47600000, -122340000)); ("SEAVEY_ISLAND", (43080000, -70740000)); ("SELDOVIA", (59440000, -151720000));
   ("SEWARD", (60120000, -149430000)); ("SEWELLS_POINT", (36950000, -76330000)); ("SITKA", (57050000, -135340000));
   ("SKAGWAY", (59450000, -135330000)); ("SOLOMONS_ISLAND", (38320000, -76450000)); ("SOUTH_BEACH", (44620000, -124040000));
   ("SPRINGMAID_PIER", (33660000, -78920000)); ("ST_GEORGES", (32370000, -64700000)); ("ST_PETERSBURG", (27760000, -82630000));
   ("TOKE_POINT", (46710000, -123970000)); ("TOLCHESTER_BEACH", (39210000, -76250000)); ("TRIDENT_PIER", (28410000, -80590000));
   ("UNALASKA", (53880000, -166540000)); ("VACA_KEY", (24710000, -81110000)); ("VALDEZ", (61120000, -146360000));
   ("VIRGINIA_KEY", (25730000, -80160000)); ("WAKE_ISLAND", (19290000, 166620000)); ("WASHINGTON_DC", (38870000, -77020000));
   ("WILMINGTON", (34230000, -77950000)); ("WOODS_HOLE", (41520000, -70670000)); ("YAKUTAT", (59550000, -139730000))
 ]%Z.
(** src/momlevel/resources/global_tide_gauges.csv:2-19 *)
Definition global_gauges : list (string * (Z * Z)) := [
   ("WELLINGTON_HARBOUR", (-41284340, 174779800)); ("ATLANTIC_CITY", (39355000, -74418333)); ("BALBOA", (8966667, -79566667));
   ("KUSHIMOTO", (33475833, 135773333)); ("SAN_DIEGO", (32713333, -117173333)); ("BREST", (48382850, -4494838));
   ("CHARLESTON", (32781667, -79925000)); ("ALEXANDRIA", (31216667, 29916667)); ("LAUTOKA", (-17604917, 177438250));
   ("NEW_YORK", (40700000, -74013333)); ("LUSI", (32133333, 121616667)); ("BUENOS_AIRES", (-34600000, -58366667));
   ("PAGO_BAY_GUAM", (13428333, 144796667)); ("SYDNEY_FORT_DENISON", (-33850000, 151233333)); ("VENEZIA_ARSENALE", (45416667, 12350000));
   ("CUXHAVEN", (53866667, 8716667)); ("ZANZIBAR", (-6150000, 39183333)); ("PAPEETE", (-17533081, -149572724))
 ]%Z.

(** tidegauge.py:132-133: the content of a list as a frame; PSMSL_site is the name *)
Definition gauge_row (g : string * (Z * Z)) : string * dict fval :=
  (fst g, [("lat", Fin (IZR (fst (snd g)) / 1000000)%R); ("lon", Fin (IZR (snd (snd g)) / 1000000)%R)]).
Definition gauge_frame (l : list (string * (Z * Z))) : frame string := mkFrame ["lat"; "lon"] (map gauge_row l).

(** tidegauge.py:125-130; [files] gives the content of the files that exist *)
Definition select_csv (files : string -> option (frame string)) (csv : string) : option (frame string) :=
  if String.eqb csv "us" then Some (gauge_frame us_gauges)
  else if String.eqb csv "global" then Some (gauge_frame global_gauges)
  else files csv.

(** tidegauge.py:40-152 with the name of the list; it defaults to "us" *)
Definition extract_listed (nearest : list point -> point -> nat) (lab : labels) (a : arr) (coords : dict arr) (xcoord ycoord : carg)
    (files : string -> option (frame string)) (csv : option string) (mask : option arr) (threshold : option fval) (disable_warning : bool) : res (dict arr) :=
  extract_tidegauge nearest lab a coords xcoord ycoord (select_csv files (match csv with Some c => c | None => "us" end)) mask threshold disable_warning.
