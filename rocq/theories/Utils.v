(** * Utils: src/utils/utils.hpp and src/utils/utils.cpp *)
From Verif Require Import Base Regex RegexParse.
Open Scope string_scope.
Open Scope list_scope.
Open Scope Z_scope.

(** ** Tables *)
(** utils.hpp:53-66 INTEGER_WORDS *)
Definition INTEGER_WORDS : list (bytes * Z) :=
  map (fun p => (bs (fst p), snd p))
  [("one"%string, 1); ("two"%string, 2); ("three"%string, 3); ("four"%string, 4); ("five"%string, 5); 
   ("six"%string, 6); ("seven"%string, 7); ("eight"%string, 8); ("nine"%string, 9); ("ten"%string, 10); 
   ("eleven"%string, 11); ("twelve"%string, 12)].

(** utils.hpp:68-100 ORDINAL_WORDS *)
Definition ORDINAL_WORDS : list (bytes * Z) :=
  map (fun p => (bs (fst p), snd p))
  [("first"%string, 1); ("second"%string, 2); ("third"%string, 3); ("fourth"%string, 4); ("fifth"%string, 5); 
   ("sixth"%string, 6); ("seventh"%string, 7); ("eighth"%string, 8); ("ninth"%string, 9); 
   ("tenth"%string, 10); ("eleventh"%string, 11); ("twelfth"%string, 12); ("thirteenth"%string, 13); 
   ("fourteenth"%string, 14); ("fifteenth"%string, 15); ("sixteenth"%string, 16); ("seventeenth"%string, 17); 
   ("eighteenth"%string, 18); ("nineteenth"%string, 19); ("twentieth"%string, 20); 
   ("twenty first"%string, 21); ("twenty second"%string, 22); ("twenty third"%string, 23); 
   ("twenty fourth"%string, 24); ("twenty fifth"%string, 25); ("twenty sixth"%string, 26); 
   ("twenty seventh"%string, 27); ("twenty eighth"%string, 28); ("twenty ninth"%string, 29); 
   ("thirtieth"%string, 30); ("thirty first"%string, 31)].

(** utils.hpp:103-116 MONTH_CONSTANTS *)
Definition MONTH_CONSTANTS : list (bytes * Z) :=
  map (fun p => (bs (fst p), snd p))
  [("january"%string, 1); ("jan"%string, 1); ("jan."%string, 1); ("february"%string, 2); ("feb"%string, 2); 
   ("feb."%string, 2); ("march"%string, 3); ("mar"%string, 3); ("mar."%string, 3); ("april"%string, 4); 
   ("apr"%string, 4); ("apr."%string, 4); ("may"%string, 5); ("june"%string, 6); ("jun"%string, 6); 
   ("jun."%string, 6); ("july"%string, 7); ("jul"%string, 7); ("jul."%string, 7); ("august"%string, 8); 
   ("aug"%string, 8); ("aug."%string, 8); ("september"%string, 9); ("sep"%string, 9); ("sep."%string, 9); 
   ("sept"%string, 9); ("sept."%string, 9); ("october"%string, 10); ("oct"%string, 10); ("oct."%string, 10); 
   ("november"%string, 11); ("nov"%string, 11); ("nov."%string, 11); ("december"%string, 12); 
   ("dec"%string, 12); ("dec."%string, 12)].

(** utils.hpp:118-126 WEEKDAY_OFFSET *)
Definition WEEKDAY_OFFSET : list (bytes * Z) :=
  map (fun p => (bs (fst p), snd p))
  [("sunday"%string, 0); ("sun"%string, 0); ("monday"%string, 1); ("mon"%string, 1); ("tuesday"%string, 2); 
   ("tue"%string, 2); ("tues"%string, 2); ("wednesday"%string, 3); ("wed"%string, 3); ("thursday"%string, 4); 
   ("thur"%string, 4); ("thurs"%string, 4); ("thu"%string, 4); ("friday"%string, 5); ("fri"%string, 5); 
   ("saturday"%string, 6); ("sat"%string, 6)].

(** utils.hpp:128-168 DEFAULT_TIMEZONE_ABBR_MAP *)
Definition TIMEZONES : list (bytes * Z) :=
  map (fun p => (bs (fst p), snd p))
  [("ACDT"%string, 630); ("ACST"%string, 570); ("ADT"%string, (-180)); ("AEDT"%string, 660); 
   ("AEST"%string, 600); ("AFT"%string, 270); ("AKDT"%string, (-480)); ("AKST"%string, (-540)); 
   ("ALMT"%string, 360); ("AMST"%string, (-180)); ("AMT"%string, (-240)); ("ANAST"%string, 720); 
   ("ANAT"%string, 720); ("AQTT"%string, 300); ("ART"%string, (-180)); ("AST"%string, (-240)); 
   ("AWDT"%string, 540); ("AWST"%string, 480); ("AZOST"%string, 0); ("AZOT"%string, (-60)); 
   ("AZST"%string, 300); ("AZT"%string, 240); ("BNT"%string, 480); ("BOT"%string, (-240)); 
   ("BRST"%string, (-120)); ("BRT"%string, (-180)); ("BST"%string, 60); ("BTT"%string, 360); 
   ("CAST"%string, 480); ("CAT"%string, 120); ("CCT"%string, 390); ("CDT"%string, (-300)); 
   ("CEST"%string, 120); ("CET"%string, 60); ("CHADT"%string, 825); ("CHAST"%string, 765); 
   ("CKT"%string, (-600)); ("CLST"%string, (-180)); ("CLT"%string, (-240)); ("COT"%string, (-300)); 
   ("CST"%string, (-360)); ("CVT"%string, (-60)); ("CXT"%string, 420); ("ChST"%string, 600); 
   ("DAVT"%string, 420); ("EASST"%string, (-300)); ("EAST"%string, (-360)); ("EAT"%string, 180); 
   ("ECT"%string, (-300)); ("EDT"%string, (-240)); ("EEST"%string, 180); ("EET"%string, 120); 
   ("EGST"%string, 0); ("EGT"%string, (-60)); ("EST"%string, (-300)); ("ET"%string, (-300)); 
   ("FJST"%string, 780); ("FJT"%string, 720); ("FKST"%string, (-180)); ("FKT"%string, (-240)); 
   ("FNT"%string, (-120)); ("GALT"%string, (-360)); ("GAMT"%string, (-540)); ("GET"%string, 240); 
   ("GFT"%string, (-180)); ("GILT"%string, 720); ("GMT"%string, 0); ("GST"%string, 240); 
   ("GYT"%string, (-240)); ("HAA"%string, (-180)); ("HAC"%string, (-300)); ("HADT"%string, (-540)); 
   ("HAE"%string, (-240)); ("HAP"%string, (-420)); ("HAR"%string, (-360)); ("HAST"%string, (-600)); 
   ("HAT"%string, (-90)); ("HAY"%string, (-480)); ("HKT"%string, 480); ("HLV"%string, (-210)); 
   ("HNA"%string, (-240)); ("HNC"%string, (-360)); ("HNE"%string, (-300)); ("HNP"%string, (-480)); 
   ("HNR"%string, (-420)); ("HNT"%string, (-150)); ("HNY"%string, (-540)); ("HOVT"%string, 420); 
   ("ICT"%string, 420); ("IDT"%string, 180); ("IOT"%string, 360); ("IRDT"%string, 270); 
   ("IRKST"%string, 540); ("IRKT"%string, 540); ("IRST"%string, 210); ("IST"%string, 330); 
   ("JST"%string, 540); ("KGT"%string, 360); ("KRAST"%string, 480); ("KRAT"%string, 480); 
   ("KST"%string, 540); ("KUYT"%string, 240); ("LHDT"%string, 660); ("LHST"%string, 630); 
   ("LINT"%string, 840); ("MAGST"%string, 720); ("MAGT"%string, 720); ("MART"%string, (-510)); 
   ("MAWT"%string, 300); ("MDT"%string, (-360)); ("MESZ"%string, 120); ("MEZ"%string, 60); 
   ("MHT"%string, 720); ("MMT"%string, 390); ("MSD"%string, 240); ("MSK"%string, 240); 
   ("MST"%string, (-420)); ("MUT"%string, 240); ("MVT"%string, 300); ("MYT"%string, 480); 
   ("NCT"%string, 660); ("NDT"%string, (-90)); ("NFT"%string, 690); ("NOVST"%string, 420); 
   ("NOVT"%string, 360); ("NPT"%string, 345); ("NST"%string, (-150)); ("NUT"%string, (-660)); 
   ("NZDT"%string, 780); ("NZST"%string, 720); ("OMSST"%string, 420); ("OMST"%string, 420); 
   ("PDT"%string, (-420)); ("PET"%string, (-300)); ("PETST"%string, 720); ("PETT"%string, 720); 
   ("PGT"%string, 600); ("PHOT"%string, 780); ("PHT"%string, 480); ("PKT"%string, 300); 
   ("PMDT"%string, (-120)); ("PMST"%string, (-180)); ("PONT"%string, 660); ("PST"%string, (-480)); 
   ("PT"%string, (-480)); ("PWT"%string, 540); ("PYST"%string, (-180)); ("PYT"%string, (-240)); 
   ("RET"%string, 240); ("SAMT"%string, 240); ("SAST"%string, 120); ("SBT"%string, 660); ("SCT"%string, 240); 
   ("SGT"%string, 480); ("SRT"%string, (-180)); ("SST"%string, (-660)); ("TAHT"%string, (-600)); 
   ("TFT"%string, 300); ("TJT"%string, 300); ("TKT"%string, 780); ("TLT"%string, 540); ("TMT"%string, 300); 
   ("TVT"%string, 720); ("ULAT"%string, 480); ("UTC"%string, 0); ("UYST"%string, (-120)); 
   ("UYT"%string, (-180)); ("UZT"%string, 300); ("VET"%string, (-210)); ("VLAST"%string, 660); 
   ("VLAT"%string, 660); ("VUT"%string, 660); ("WAST"%string, 120); ("WAT"%string, 60); ("WEST"%string, 60); 
   ("WESZ"%string, 60); ("WET"%string, 0); ("WEZ"%string, 0); ("WFT"%string, 720); ("WGST"%string, (-120)); 
   ("WGT"%string, (-180)); ("WIB"%string, 420); ("WIT"%string, 540); ("WITA"%string, 480); 
   ("WST"%string, 780); ("WT"%string, 0); ("YAKST"%string, 600); ("YAKT"%string, 600); ("YAPT"%string, 600); 
   ("YEKST"%string, 360); ("YEKT"%string, 360)].


(** std::map::find *)
Fixpoint tbl_find (w : bytes) (t : list (bytes * Z)) : option Z :=
  match t with
  | [] => None
  | (k, v) :: t' => if beq w k then Some v else tbl_find w t'
  end.
(** std::map::operator[] read of a table whose only other accesses are operator[] reads
    (MONTH_CONSTANTS, WEEKDAY_OFFSET, ORDINAL_WORDS): an absent key is inserted with 0 and
    reads 0 for ever after, so the insertion is unobservable and not modelled. *)
Definition tbl_get (w : bytes) (t : list (bytes * Z)) : Z :=
  match tbl_find w t with Some v => v | None => 0 end.

(** ** The mutable global INTEGER_WORDS of the parsers' translation unit
    (utils.hpp:53, a non-const [static std::map]). *)
Definition gwords := list (bytes * Z).
Definition gwords_init : gwords := INTEGER_WORDS.
(** INTEGER_WORDS.find(w) *)
Definition gw_find (g : gwords) (w : bytes) : option Z := tbl_find w g.
(** INTEGER_WORDS[w]: inserts (w,0) when absent *)
Definition gw_index (g : gwords) (w : bytes) : Z * gwords :=
  match tbl_find w g with
  | Some v => (v, g)
  | None => (0, (w, 0) :: g)
  end.

(** ** argToOrdinalValue (utils.cpp:14-19) *)

(** std::regex_replace: copy the text, replacing each successive match by [fmt match].
    Successive matches as in std::regex_iterator: the search resumes at the end of the previous match with the
    preceding character visible (match_prev_avail).  The two patterns used never match the empty string. *)
Fixpoint regex_replace_loop (fuel : nat) (r : re) (fmt : mres -> bytes) (prev : option ascii) (t : bytes)
  : outcome bytes :=
  match fuel with
  | O => OutOfFuel
  | S fuel' =>
    match search_from false r prev t 0 with
    | None => Ret t
    | Some m =>
        let upto := (m_pos m + List.length (m_str m))%nat in
        let prev' := match rev (firstn upto t) with c :: _ => Some c | [] => prev end in
        rest <- regex_replace_loop fuel' r fmt prev' (skipn upto t) ;;
        Ret (firstn (m_pos m) t ++ fmt m ++ rest)
    end
  end.
Definition regex_replace (r : re) (fmt : mres -> bytes) (t : bytes) : outcome bytes :=
  regex_replace_loop (S (List.length t)) r fmt None t.

(** run a literal pattern that must compile *)
Definition with_re {A} (pat : bytes) (f : re -> outcome A) : outcome A :=
  match compile pat with Some r => f r | None => Throw RegexError end.

(** utils.cpp:14-19 *)
Definition argToOrdinalValue (arg : bytes) : outcome Z :=
  with_re (bs "-") (fun r1 =>
  v1 <- regex_replace r1 (fun _ => bs " ") arg ;;
  with_re (bs "^ +| +$|( ) +") (fun r2 =>
  v2 <- regex_replace r2 (fun m => grp m 1) v1 ;;
  Ret (tbl_get (to_lower v2) ORDINAL_WORDS))).

(** ** keysToString and the time-unit pattern (utils.cpp:21-32, utils.hpp:190-195) *)

(** std::map iterates its keys in lexicographic byte order. *)
Fixpoint bytes_leb (a b : bytes) : bool :=
  match a, b with
  | [], _ => true
  | _ :: _, [] => false
  | x :: a', y :: b' => N.ltb (code x) (code y) || (N.eqb (code x) (code y) && bytes_leb a' b')
  end.
Fixpoint insert_key (k : bytes) (l : list bytes) : list bytes :=
  match l with [] => [k] | x :: l' => if bytes_leb k x then k :: l else x :: insert_key k l' end.
Definition sorted_keys (t : list (bytes * Z)) : list bytes := fold_right insert_key [] (map fst t).

(** utils.cpp:21-32 *)
Definition keysToString (t : list (bytes * Z)) : bytes :=
  removelast (List.concat (map (fun k => k ++ bs "|") (sorted_keys t))).

(** utils.hpp:190-193 *)
Definition TIME_UNIT : bytes :=
  bs "(" ++ (bs "(?:" ++ keysToString INTEGER_WORDS ++ bs ")") ++
  bs "|[0-9]+|an?(?:\s*few)?|half(?:\s*an?)?)\s*" ++
  bs "(sec(?:onds?)?|min(?:ute)?s?|hours?|weeks?|days?|months?|years?)\s*".

(** ** Unit fragments (utils.cpp:34-82): std::map<std::string,float> over the seven unit names *)
Definition frags := string -> option fnum.
Definition frags_empty : frags := fun _ => None.
Definition frag_put (f : frags) (k : string) (v : fnum) : frags :=
  fun k' => if String.eqb k' k then Some v else f k'.
(** fragments["x"]: 0 when absent *)
Definition frag_get (f : frags) (k : string) : fnum :=
  match f k with Some v => v | None => FInt 0 end.

(** utils.cpp:50-63: the amount. This uses utils.cpp's own copy of INTEGER_WORDS, which nothing mutates.
    Searching for a literal pattern is substring search. *)
Definition fragment_amount (label : bytes) : outcome fnum :=
  let n := to_lower label in
  match tbl_find n INTEGER_WORDS with
  | Some v => Ret (FInt v)
  | None =>
    if beq n (bs "a") || beq n (bs "an") then Ret (FInt 1)
    else if contains (bs "few") n then Ret (FInt 3)
    else if contains (bs "half") n then Ret FHalf
    else v <- stoi n ;; Ret (FInt (if v <? 0 then v else fround v))
  end.

(** utils.cpp:65-79: the unit *)
Definition fragment_unit (element : bytes) : option string :=
  let e := to_lower element in
  if contains (bs "hour") e then Some "hour"
  else if contains (bs "min") e then Some "minute"
  else if contains (bs "sec") e then Some "second"
  else if contains (bs "week") e then Some "week"
  else if contains (bs "day") e then Some "day"
  else if contains (bs "month") e then Some "month"
  else if contains (bs "year") e then Some "year"
  else None.

(** utils.cpp:49-82 *)
Definition collectDateTimeFragment (m : mres) (f : frags) : outcome frags :=
  n <- fragment_amount (grp m 1) ;;
  match fragment_unit (grp m 2) with
  | Some u => Ret (frag_put f u n)
  | None => Ret f
  end.

(** utils.cpp:34-47.  Line 43 drops as many characters as the match is long from the *front*. *)
Fixpoint extract_loop (fuel : nat) (r : re) (rem : bytes) (f : frags) : outcome frags :=
  match fuel with
  | O => OutOfFuel
  | S fuel' =>
    match search true r rem with
    | None => Ret f
    | Some m =>
        f' <- collectDateTimeFragment m f ;;
        rem' <- substr_from rem (List.length (m_str m)) ;;
        extract_loop fuel' r rem' f'
    end
  end.
Definition extractDateTimeUnitFragments (t : bytes) : outcome frags :=
  with_re TIME_UNIT (fun r => extract_loop (S (List.length t)) r t frags_empty).
