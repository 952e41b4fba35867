(** * ParserRe: the compiled patterns, with their pieces named *)
From Verif Require Import Base Regex RegexParse Calendar Components Utils Execute RegexFacts.
From Verif Require Import P_CasualDate P_CasualTime P_DayOfWeek P_Deadline P_ISO P_MonthName P_MiddleEndian
  P_Relative P_TimeAgo P_TimeLater P_TimeExpression P_Holiday P_Week.
Open Scope string_scope.
Open Scope list_scope.
Open Scope Z_scope.

Definition pat (s : string) : re := match compile (bs s) with Some r => r | None => REps end.
Definition WB (n : nat) : re := RGrp n (RWb false).
Definition SPs : re := RStar true (RSet false [CClass false KSpace]).
Definition SPp : re := RCat (RSet false [CClass false KSpace]) SPs.

(** casual dates *)
Definition cd_words : re := Eval vm_compute in
  pat "now|today|tonight|last\s*night|(?:tomorrow|tmr|yesterday)\s*|tomorrow|tmr|yesterday".
Definition casual_date_re : re := RCat (WB 1) (RCat (RGrp 2 cd_words) (WB 3)).
Lemma casual_date_compile : compile (p_pattern casual_date) = Some casual_date_re.
Proof. vm_compute. reflexivity. Qed.

(** casual times *)
Definition ct_this : re := Eval vm_compute in pat "this".
Definition ct_words : re := Eval vm_compute in pat "morning|afternoon|evening|noon|night".
Definition casual_time_re : re :=
  RCat (WB 1) (RCat (RGrp 2 (RCat (ROpt true (RGrp 3 ct_this)) (RCat SPs (RGrp 4 ct_words)))) (WB 5)).
Lemma casual_time_compile : compile (p_pattern casual_time) = Some casual_time_re.
Proof. vm_compute. reflexivity. Qed.

(** days of the week: the pattern is ill-formed *)
Lemma day_of_week_compile : compile (p_pattern day_of_week) = None.
Proof. vm_compute. reflexivity. Qed.

(** deadlines *)
Definition dl_kw : re := Eval vm_compute in pat "within|in".
Definition dl_num : re := Eval vm_compute in
  pat "(?:one|two|three|four|five|six|seven|eight|nine|ten|eleven|twelve)|[0-9]+|an?(?:\s+few)?|half(?:\s+an?)?".
Definition dl_unit : re := Eval vm_compute in
  pat "sec(?:ond)?s?|min(?:ute)?s?|h(?:ou)?rs?|days?|w(?:ee)?ks?|months?|y(?:ea)?rs?".
Definition deadline_re : re :=
  RCat (WB 1) (RCat (RGrp 2 dl_kw) (RCat SPp (RCat (RGrp 3 dl_num) (RCat SPp (RCat (RGrp 4 dl_unit) (WB 5)))))).
Lemma deadline_compile : compile (p_pattern deadline) = Some deadline_re.
Proof. vm_compute. reflexivity. Qed.

(** ISO *)
Definition D4 : re := Eval vm_compute in pat "[0-9]{4}".
Definition D12 : re := Eval vm_compute in pat "[0-9]{1,2}".
Definition dash : re := Eval vm_compute in pat "\-".
Definition colon : re := Eval vm_compute in pat ":".
Definition iso_frac : re := RCat (pat "\.") (RGrp 8 (pat "\d{1,4}")).
Definition iso_zone : re := RAlt (pat "Z") (RCat (RGrp 9 (pat "[+-]\d{2}")) (RCat (ROpt true colon) (ROpt true (RGrp 10 (pat "\d{2}"))))).
Definition iso_time : re :=
  RCat (pat "T") (RCat (RGrp 5 D12) (RCat colon (RCat (RGrp 6 D12)
   (RCat (ROpt true (RCat colon (RCat (RGrp 7 D12) (ROpt true iso_frac)))) (ROpt true iso_zone))))).
Definition iso_re : re :=
  RCat (WB 1) (RCat (RGrp 2 D4) (RCat dash (RCat (RGrp 3 D12) (RCat dash (RCat (RGrp 4 D12) (RCat (ROpt true iso_time) (WB 11))))))).
Lemma iso_compile : compile (p_pattern iso) = Some iso_re.
Proof. vm_compute. reflexivity. Qed.

(** weeks *)
Definition wk_kw : re := Eval vm_compute in pat "last|next".
Definition wk_num : re := Eval vm_compute in pat "\d+".
Definition wk_word : re := Eval vm_compute in pat "\w{3,9}".
Definition wk_weeks : re := Eval vm_compute in pat "weeks?".
Definition wk_this : re := Eval vm_compute in pat "this\s*week".
Definition wk_opt : re := ROpt true (RAlt (RGrp 3 wk_num) (RGrp 4 wk_word)).
Definition week_re : re :=
  RCat (WB 1) (RCat (RGrp 2 (RAlt (RCat wk_kw (RCat SPp (RCat wk_opt (RCat SPs wk_weeks)))) wk_this)) (WB 5)).
Lemma week_compile : compile (p_pattern week) = Some week_re.
Proof. vm_compute. reflexivity. Qed.

(** holidays *)
Definition ho_words : re := Eval vm_compute in
  pat "Independence|President\'s|New\s*Year\'s(?:\s*eve)?|Columbus|MLK|Martin\s*Luther\s*King\s*(?:Junior|Jr|Jnr)|Thanksgiving|Memorial|Labor|Veteran(?:s|\\'s)|Christmas\\s*(?:eve)?|black\s*Friday".
Definition ho_day : re := Eval vm_compute in pat "day".
Definition holiday_re : re := RCat (WB 1) (RCat (RGrp 2 ho_words) (RCat SPp (RCat (ROpt true ho_day) (WB 3)))).
Lemma holiday_compile : compile (p_pattern holiday) = Some holiday_re.
Proof. vm_compute. reflexivity. Qed.

(** relative dates *)
Definition rl_kw : re := Eval vm_compute in pat "this|next|last|past".
Definition rl_num : re := Eval vm_compute in
  pat " (?:one|two|three|four|five|six|seven|eight|nine|ten|eleven|twelve)|[0-9]+|few|half(?:\s*an?)?".
Definition rl_unit : re := Eval vm_compute in
  pat "seconds?|min(?:ute)?s?|hour(?:s)?|day(?:s)?|week(?:s)?|month(?:s)?|year(?:s)?".
Definition relative_re : re :=
  RCat (WB 1) (RCat (RGrp 2 rl_kw) (RCat SPs (RCat (ROpt true (RGrp 3 rl_num)) (RCat SPs (RCat (RGrp 4 rl_unit)
    (RCat (RLook false SPs) (WB 5))))))).
Lemma relative_compile : compile (p_pattern relative) = Some relative_re.
Proof. vm_compute. reflexivity. Qed.

(** month names *)
Definition mn_lead : re := Eval vm_compute in pat "^|\D\s+|[^\w\s]".
Definition mn_months : re := Eval vm_compute in
  pat "Jan\.?|January|Feb\.?|February|Mar\.?|March|Apr\.?|April|May\.?|Jun\\.?|June|Jul\.?|July|Aug\.?|August|Sep\.?|Sept\.?|September|Oct\.?|October|Nov\.?|November|Dec\.?|December".
Definition mn_sep : re := Eval vm_compute in pat "[,-]".
Definition mn_era : re := Eval vm_compute in pat "\s*BE|AD|BC".
Definition mn_year : re := RCat (ROpt true mn_sep) (RCat SPs (RCat (RGrp 3 D4) (ROpt true (RGrp 4 mn_era)))).
Definition mn_look : re := Eval vm_compute in pat "[^\s\w]|\s+[^0-9]|\s+$|$".
Definition month_name_re : re :=
  RCat (RGrp 1 mn_lead) (RCat (RGrp 2 mn_months) (RCat SPs (RCat (ROpt true mn_year) (RLook false mn_look)))).
Lemma month_name_compile : compile (p_pattern month_name) = Some month_name_re.
Proof. vm_compute. reflexivity. Qed.

(** month, day, year *)
Definition me_on : re := Eval vm_compute in pat "on\s*?".
Definition me_wday : re := Eval vm_compute in
  pat "Sun(?:day)?|Mon(?:day)?|Tue(?:s(?:day)?)?|Wed(?:nesday)?|Thu(?:r(?:s(?:day)?)?)?|Fri(?:day)?|Sat(?:urday)?".
Definition me_month : re := Eval vm_compute in
  pat "Jan(?:uary|\.)?|Feb(?:ruary|\.)?|Mar(?:ch|\.)?|Apr(?:il|\.)?|May\.?|Jun(?:e|\.)?|Jul(?:\.|y)?|Aug(?:ust|\.)?|Sep(?:\.|t(?:\.|ember)?)?|Oct(?:ober|\.)?|Nov(?:\.|ember)?|Dec(?:ember|\.)?".
Definition me_sep : re := Eval vm_compute in pat "-|\/|\s*,?\s*".
Definition me_comma : re := Eval vm_compute in pat ",".
Definition me_suffix : re := Eval vm_compute in pat "st|nd|rd|th".
Definition me_ord1 : re := Eval vm_compute in
  pat "first|second|third|fourth|fifth|sixth|seventh|eighth|ninth|tenth|eleventh|twelfth|thirteenth|fourteenth|fifteenth|sixteenth|seventeenth|eighteenth|nineteenth|twentieth|twenty[ -]first|twenty[ -]second|twenty[ -]third|twenty[ -]fourth|twenty[ -]fifth|twenty[ -]sixth|twenty[ -]seventh|twenty[ -]eighth|twenty[ -]ninth|thirtieth|thirty[ -]first".
Definition me_ord2 : re := Eval vm_compute in
  pat "first|second|third|fourth|fifth|sixth|seventh|eighth|ninth|tenth|eleventh|twelfth|thirteenth|fourteenth|fifteenth|sixteenth|seventheenth|eighteenth|nineteenth|twentieth|twenty[ -]first|twenty[ -]second|twenty[ -]third|twenty[ -]fourth|twenty[ -]fifth|twenty[ -]sixth|twenty[ -]seventh|twenty[ -]eighth|twenty[ -]ninth|thirtieth|thirty[ -]first".
Definition me_lead : re := RCat (ROpt true me_on) (RCat (RGrp 2 me_wday) (RCat SPs (RCat (ROpt true me_comma) SPs))).
Definition me_ampm : re := Eval vm_compute in pat "\s*(?:am|pm)".
Definition me_to : re := Eval vm_compute in pat "to|\-".
Definition me_range : re :=
  RCat me_to (RCat SPs (RCat (RGrp 6 (RAlt (RCat (RGrp 7 D12) (ROpt true me_suffix)) me_ord2)) SPs)).
Definition me_era : re := Eval vm_compute in pat "BE|AD|BC".
Definition me_era2 : re := Eval vm_compute in pat "AD|BC".
Definition D14 : re := Eval vm_compute in pat "[0-9]{1,4}".
Definition me_year : re :=
  RCat me_sep (RCat (RAlt (RCat (RGrp 8 D4) (RCat SPs (ROpt true (RGrp 9 me_era))))
                          (RCat (RGrp 10 D14) (RCat SPs (RGrp 11 me_era2)))) SPp).
Definition me_tail : re := Eval vm_compute in pat "\:\d".
Definition middle_endian_re : re :=
  RCat (WB 1) (RCat (ROpt true me_lead) (RCat (RGrp 3 me_month) (RCat me_sep
   (RCat (RGrp 4 (RAlt (RCat (RGrp 5 D12) (ROpt true me_suffix)) me_ord1))
   (RCat (RLook true me_ampm) (RCat SPp (RCat (ROpt true me_range) (RCat (ROpt true me_year) (RCat (WB 12) (RLook true me_tail)))))))))).
Lemma middle_endian_compile : compile (p_pattern middle_endian) = Some middle_endian_re.
Proof. vm_compute. reflexivity. Qed.

(** clock times *)
Definition te_lead : re := Eval vm_compute in pat "^|\s|T".
Definition te_at : re := Eval vm_compute in pat "(?:at|from)\s*".
Definition te_hour : re := Eval vm_compute in pat "\d{1,4}|noon|midnight".
Definition te_dot : re := Eval vm_compute in pat "\.|\:|\：".
Definition te_col : re := Eval vm_compute in pat "\:|\：".
Definition te_d12 : re := Eval vm_compute in pat "\d{1,2}".
Definition te_d2 : re := Eval vm_compute in pat "\d{2}".
Definition te_d14 : re := Eval vm_compute in pat "\d{1,4}".
Definition te_d16 : re := Eval vm_compute in pat "\d{1,6}".
Definition te_point : re := Eval vm_compute in pat "\.".
Definition te_ampm : re := Eval vm_compute in pat "A\.M\.?|P\.M\.?|AM?|PM?|O\W*CLOCK".
Definition te_look : re := Eval vm_compute in pat "\W|$".
Definition te_space : re := Eval vm_compute in pat " ".
Definition te_min : re :=
  RCat te_dot (RCat (RGrp 3 te_d12) (ROpt true (RCat te_col (RCat (RGrp 4 te_d2) (ROpt true (RCat te_point (RGrp 5 te_d16))))))).
Definition te_mer (n : nat) : re := RCat SPs (RGrp n te_ampm).
Definition te_lead2 : re := Eval vm_compute in pat "^|\s*".
Definition te_sep2 : re := Eval vm_compute in pat "\-|\–|\~|\〜|to|\?".
Definition te_min2 : re :=
  RCat te_dot (RCat (RGrp 11 te_d12) (ROpt true (RCat te_dot (RCat (RGrp 12 te_d12) (ROpt true (RCat te_point (RGrp 13 te_d16))))))).
Definition te_to : re :=
  RCat (RGrp 8 te_lead2) (RCat (RGrp 9 te_sep2) (RCat SPs (RCat (RGrp 10 te_d14) (RCat (ROpt true te_min2)
    (RCat (ROpt true (te_mer 14)) (WB 15)))))).
Definition time_expression_re : re :=
  RCat (RGrp 1 te_lead) (RCat (ROpt false te_at) (RCat (RGrp 2 te_hour) (RCat (ROpt true te_min)
   (RCat (ROpt true (te_mer 6)) (RCat (RLook false te_look) (RCat (ROpt true te_space) (ROpt true (RGrp 7 te_to)))))))).
Lemma time_expression_compile : compile (p_pattern time_expression) = Some time_expression_re.
Proof. vm_compute. reflexivity. Qed.

(** ago / later *)
Definition ag_within : re := Eval vm_compute in pat "within\s*".
Definition ag_num : re := Eval vm_compute in
  pat "(?:one|two|three|four|five|six|seven|eight|nine|ten|eleven|twelve)|[0-9]+|an?(?:\s*few)?|half(?:\s*an?)?".
Definition ag_unit : re := Eval vm_compute in pat "sec(?:onds?)?|min(?:ute)?s?|hours?|weeks?|days?|months?|years?".
Definition ag_bslash : re := Eval vm_compute in pat "\\".
Definition ag_ss : re := Eval vm_compute in pat "s*".
Definition ag_item : re := RCat (RGrp 3 ag_num) (RCat SPs (RCat (RGrp 4 ag_unit) (RCat ag_bslash ag_ss))).
Definition ag_end : re := Eval vm_compute in pat "ago|before|earlier".
Definition time_ago_re : re :=
  RCat (WB 1) (RCat (ROpt true ag_within) (RCat (RGrp 2 (RCat ag_item (RStar true ag_item))) (RCat ag_end (WB 5)))).
Lemma time_ago_compile : compile (p_pattern time_ago) = Some time_ago_re.
Proof. vm_compute. reflexivity. Qed.

Definition lt_num : re := Eval vm_compute in
  pat "(?:one|two|three|four|five|six|seven|eight|nine|ten|eleven|twelve)|[0-9]+|an?(?:\s*few)?|half(?:\s+an?)?""".
Definition lt_item : re := RCat (RGrp 3 lt_num) (RCat SPp (RCat (RGrp 4 ag_unit) (RCat ag_bslash ag_ss))).
Definition lt_end : re := Eval vm_compute in pat "later|after|from now|henceforth|forward|out".
Definition time_later_re : re :=
  RCat (WB 1) (RCat (RGrp 2 (RCat lt_item (RStar true lt_item))) (RCat lt_end (WB 5))).
Lemma time_later_compile : compile (p_pattern time_later) = Some time_later_re.
Proof. vm_compute. reflexivity. Qed.

(** unit fragments (utils.hpp:190-193) *)
Definition fu_num : re := Eval vm_compute in
  pat "(?:eight|eleven|five|four|nine|one|seven|six|ten|three|twelve|two)|[0-9]+|an?(?:\s*few)?|half(?:\s*an?)?".
Definition time_unit_re : re := RCat (RGrp 1 fu_num) (RCat SPs (RCat (RGrp 2 ag_unit) SPs)).
Lemma time_unit_compile : compile TIME_UNIT = Some time_unit_re.
Proof. vm_compute. reflexivity. Qed.
