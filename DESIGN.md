# Formal model of ccs-pycalendar: design

Source: /repo at its pinned commit (Python 2). Nothing there is built, run or changed.
All Coq sources are under `rocq/theories`, built with Coq 8.16.1, library `Verif`.

## 1. How the model is written

* Every modelled Python function becomes one Gallina function with the same
  branches in the same order. The comment above it cites file and lines and
  states every simplification.
* Exceptions are values: `res A := Ok a | Raise e` with `exn` listing the
  Python exception classes that matter (`ValueError`, `IndexError`, ...).
  `try/except` becomes a match on `res`.
* Python 2 `int`/`long` is `Z`. `/` on integers is `Z.div` (floor) and `%` is
  `Z.modulo` (sign of divisor); both agree with Python 2. Byte strings (`str`) are
  `list ascii`. Unicode strings are not modelled: all text is bytes (UTF-8).
* A mutable object is a record; a method that mutates returns the new record.
* `while` loops become structural recursion where possible and otherwise
  recursion on fuel that returns `None` (diverged) when exhausted. A theorem about a fuelled
  loop either shows that fuel always suffices (termination is then proved), or
  shows that no fuel suffices (non-termination is then proved).
* External things (timezone offsets for a TZID, file system) are function
  arguments, universally quantified in the theorems. No axioms are declared.

Files: `PyBase.v` (Python semantics), `*Model.v` (model, no proofs), `*Spec.v` (independent
specifications), `*Proofs.v` (lemmas), `Prop*.v` (only property theorems,
each `exact lemma`, with `Print Assumptions` and an `Example` of its hypotheses).

Where the code violates what a user would expect, the property is stated on the exact
domain where the code is right (suffix `_partial` where it is weaker than the English claim)
and a `_refuted` theorem gives the concrete violation.

## 2. Plan for each property

| id | what is modelled | how it is proved |
|----|------------------|------------------|
| C01 | utils day tables, leap years, `daysSince1970`, `getPosixTime` | independent civil-calendar successor `next_day` and relation to day number; algebra over `Z.div`; error formula for all years > 1752 |
| C02 | `getDayOfWeek` | from C01 plus modular arithmetic, both sign branches |
| C03 | `normalise` incl. its loops | loop invariants (measure = distance to month bounds), fuel shown sufficient; spec is n-fold `next_day`/`prev_day` |
| C04 | `__add__`, `__sub__` | from C03 (iterated successor adds up) and C01 |
| C05 | `compareDateTime`, comparators | lexicographic order lemma; monotonicity of day count |
| C06 | `compareDateTime`, `__hash__` | direct case analysis with tz oracle; refutation by witness |
| C07 | DateTime object with its caches as a state machine over operations | invariant by induction on operation lists |
| C08 | `setYearDay`, `setMonthDay`, ... | C03 + month table lemma |
| C09 | `setDayOfWeekInMonth/Year`, `isDayOfWeekInMonth` | C01-C03, modular arithmetic; spec counts weekdays in month |
| C10 | `getWeekNo` | arithmetic against ISO Thursday rule |
| C11 | `setWeekNo` | complete characterisation: which week each call lands in, on which dates the call is right, refutation for Sunday |
| C12 | `getText`, `parse*` | digit printing/reading lemmas |
| C13 | `parse*` | exhaustive case analysis on strings of arbitrary length |
| C14 | `setDuration`, `getTotalSeconds` | `Z.div`/`mod` algebra |
| C15 | `Duration.parse/generate`, `strtoul` | digit lemmas; case analysis |
| C16 | `Duration.parse` from an arbitrary previous state | refutation and conditional theorem |
| C17 | Period predicates | order reasoning over instants |
| C18 | Period codec | composition of C12 and C15 |
| C19 | UTCOffsetValue codec | digit lemmas |
| C20 | `writeTextValue`, `decodeTextValue` | induction on strings |
| C21 | `decodeTextValue` with policy parameters | induction on strings; spec scans escape pairs |
| C22 | encode/decodeParameterValue | induction; spec normalises line ends |
| C23 | Property name/param/value line printing and parsing | induction on parameter list; strduptokenstr lemmas |
| C24 | folding loop, readFoldedLine | loop invariant; spec `unfold`; UTF-8 validity predicate |
| C25 | folding loop | ranking argument / invariant of divergence |
| C26 | vCard and base parameter parsing loops | ranking argument / invariant of divergence |
| C27 | text list codecs | induction on lists and strings |
| C28 | packDate etc. | bit arithmetic |
| C29 | Recurrence parse/generate | per-part printing lemmas, induction on lists |
| C30 | Recurrence.parse | invariant over the part loop |
| C31 | simpleExpand | loop invariant; spec is the list of k with DTSTART+k*step before end |
| C32 | expand, complexExpand | loop invariant generic in the generator of candidate sets |
| C33 | expand cache state machine | induction over histories |
| C34 | by* functions | list induction, predicates from RFC text |
| C35 | bySetPosLimit | index lemmas |
| C36 | RecurrenceSet.expand | set reasoning on lists |
| C37 | VTimezone offset lookup: element expansion, table, bisect, caches | invariant over all histories of questions; table against the set of onsets of RFC 5545 3.6.5; invariant of binary search |
| C38 | TimezoneDatabase with its caches, `posixpath.join`/`normpath`, over a file system argument | path resolution as a walk in the file tree; induction on call sequences; witnesses |
| C39 | generate and parse of calendars with all component classes, finalise, sort keys | induction on trees over C52 and C24; sorting lemmas |
| C40 | ContainerBase.parse | grammar against the stack machine, both directions, induction over lines; witnesses |
| C41 | sortedPropertyKeys, sortedComponents | permutation reasoning |
| C42 | validate of all component classes and of containers | relation between the trees before and after; induction on trees; witnesses |
| C43 | Calendar add/remove/changeUID, component equality | objects with identity; invariant over histories; witnesses |
| C44 | zonal utils: getLocaltime, getUTC | from C03 |
| C45 | zonal rule: datetimeForYear, getOnDayDetails | from C01, C03, C09; BY parts against the day ranges they select |
| C46 | offset string converters | string case analysis, witnesses |
| C47 | `DateTime.parse*` into a used object | exact effect on the fields and caches |
| C48 | setters and copies of `Recurrence` | case analysis, refutations |
| C49 | `expand`/`complexExpand` of rules with BY parts | composition of C32 and C34 over the interval loop |
| C50 | `VTimezone.getTimezoneDescriptor` | from C37's element invariant; refutation |
| C51 | TimezoneDatabase lookups, merges and caches | invariant over call histories |
| C52 | Property objects with typed values: parseText, generateValue, the value classes, VALUE and TZID parameters | composition of C12, C15, C18-C20, C23, C27, C29; type tables against lists copied from RFC 5545; witnesses |
| C53 | zonal Rule, RuleSet, Zone, ZoneRule parse and generate | induction on the layout of blanks; split/join lemmas |
| C54 | ZoneRule.getUntilDate | per form, from C09 and digit lemmas |
| C55 | validate, parse | problem table by property name against the class tables; induction on trees and on lines |
| C56 | duplicate of the component, property and value classes | induction on trees; sorting by unchanged keys; witnesses |
| C57 | ComponentBase.__eq__ | greedy matching under an equivalence; induction on trees; witnesses |
| C58 | includeMissingTimezones, stripStandardTimezones, getTimezones | loop invariant over the list of TZIDs; witnesses |
| C60 | expandPeriod, withinPeriod, getVEvents, finalise of recurring components | C36 for the recurrence set, then difference with the recurrence ids; sort shown to change nothing; witnesses |
| C62 | adjustToUTC, adjustTimezone | instants of C17, chain of changes by induction on the distance; examples go through the lookup model of C37; witnesses |
| C59 | deriveComponent | properties after removal and addition, then finalise; C56 for the copy, C62 for the zone, C60 twice for the instances before and after; witnesses |
| C61 | edit functions for times and recurrences | properties after removal and addition, then finalise; witnesses |
| C63 | JSON form of properties and calendars | the tree read from any reordering of what was written is compared with the original; witnesses read from text |
| C64 | Filtered output | the text and the JSON are compared with those of the component cut down to what the calls asked for; the text is read again |
| C65 | Property(name, value, valuetype) | the made property meets the condition of C52 by cases over the kinds of values; witnesses |
| C66 | edited alarms | what is loaded split in action, trigger, repetitions and status, each from its own properties; histories by induction; witnesses |
| C67 | busy times | the collected list with its least start and greatest end as an invariant; insertion sort stable by moments; overlap of periods from C18 |
| C68 | Zone.expand | time line in seconds; a line is its standard offset, its saving or sorted rule switches, its end; the loop over the rule transitions follows the chain of offsets; the scan as a fold over steps |
| C69 | Zone.vtimezone, Rule.vtimezone, ZoneRule.vtimezone, _compressRDateComponents | runs of changes as maximal blocks; RRULE expansions of C31/C49 against the days of the rule year by year; merging as a fold; lookup from C37; refutations |
| C70 | vcard/card.py, vcard/property.py, N, ADR and ORG values, with the base classes | lines by C23, texts by C20-C22, values as in C52; the dictionary of properties as in C53; acceptance as a grammar of lines, both ways by induction on the lines; refutations |
| C71 | editSummary, editDetails, editStatus, editCompleted, finalise of VEvent and VToDo, getCompletionState | an invariant between the properties and the cached fields, kept by each call; what is edited can still be written, so that C39 applies; refutations |
| C72 | writeXML, writeXMLFiltered and getTextXML | a reader of XML text and a translation from xCal to jCal as specification; the text that is written is read as the elements, and the elements translate to the JSON of C63; refutations |
| C73 | tzconvert.parse and expandZone | a grammar of tz source files as relation from lines to facts; the loop over the lines as a fold over the facts; refutations |
| C74 | tzconvert.vtimezones and Calendar.parseText of it | the text read back by the round trip of whole calendars (ComponentProofs6.calendar_round) for the components that Zone.vtimezone makes; composed with C69; refutations by computation |
| C75 | tzconvert.generateZoneinfoFiles, parseWindowsAliases | the dictionary of files followed through both loops; the replaced text is shown to be the text of the renamed zone, which C74 reads; refutations by computation |
| C76 | property.py parseJSON, writeJSON with vcard/property.py, vcard/adr.py, n.py, orgvalue.py, card.py parseMultipleJSONData | as C63, over the tables of vCards; refutations by computation |
| C77 | validate() and duplicate() of cards | problems as an inductive relation over counts of properties; cards that are read have texts where validate asks for them; refutations by computation |
| C78 | texts for display | texts as a relation with separate tables of names and the weekday counted in days from 1970; uniqueness by cutting texts at their first separator; refutations by computation |
| C79 | the checking tool | from C55, C70 and C77, and that every text that is not empty is read or refused with these policies; refutations by computation |
| C80 | hashes, == of vCards | hash() is a function of the key (what the hashed tuple holds); sets of Python as lists of elements with their hash; refutations by computation |
| C81 | the tool that expands rules | from C13, C30, C31 and C49, with the window shown to end a hundred years later; refutations by computation and, for the endless loop, by induction on the fuel |
| C82 | what an overriding component takes from its master | by cases on which properties are present, with the lemmas of C60 about lengths; refutations by computation |
| C83 | UID, sequence number and time stamps | by cases on the call, by induction on the calls, and with the round trip of calendars (C39) as for C71; C83_made by induction with the counter growing; C83_clock from C01 |
| C84 | setting the value of a property | by cases on the type and the value; the text from C52 |
| C85 | editing the parameters of a property | by induction on the calls, the dict seen as a function from names to lists; the text from C52 |
| C86 | removing and matching by equality | by induction on the lists; C86_rules with an exchange argument, equality of rules being an equivalence (C29) |
| C87 | registered property names | the tables after the calls are characterised by induction on the calls; the rest as for C52, with the tables of writer and reader as parameters |
| C88 | JSON form of properties with registered names | as for C63, with the table after the calls of the reader as a parameter |
| C89 | making properties with registered names | as for C65, with the tables after the calls; the round trip is that of C87 |
| C90 | setting values of properties with registered names | as for C84, with the table after the calls; the round trip is that of C87 |
| C91 | questions about time zones to a calendar | the state of the calendar is the list of its VTIMEZONE objects with their caches; each is in a state of C37, by induction on the questions; the answers are those of C37 and C50 |
| C92 | formats given by name | the choice of the format is modelled as coded; the round trips are those of C39, C63, C70 and C76 |
| C93 | user interface functions of rules and sets | case analysis against a description of the parts; the description is read by C29 |
| C94 | parseComponent and the database of compiled zones | the loop in step with that of parse(); C39, C51, C74 and C75 composed |
| C95 | strindexfind, strnindexfind, loadPrivateValue | induction on the list, on the dictionary |

## 3. Trusted base

* The Coq 8.16.1 kernel (including its `vm_compute`, used in Examples, witnesses and finite case checks)
  and `coqchk`.
* Axioms: none. Every theorem of section 2 is followed by `Print Assumptions`; for each of them
  Coq prints `Closed under the global context` (`make` shows it). No standard library axiom is used either.
  `coqchk` lists seven axioms `Coq.ssr.ssrunder.Under_rel.*` among the loaded library; they are part of a
  library module that `Lia` loads, and no theorem depends on them.
* That the Gallina functions do what the Python functions do. This is by reading; the
  citations give file and lines. The list below says what was read into the model.
* That the `*Spec.v` files say what the English statement in `properties.jsonl` means.

### Modelled code

| file of /repo/src/pycalendar | what | model |
|---|---|---|
| datetime.py | all arithmetic, calendar, comparison, cache, zone and text functions of DateTime; the timezone database is the argument `tzo` | CalModel, DateTimeModel, DateTimeText, DateTimeOps |
| duration.py, stringutils.py | DateTime durations, `strtoul`, `strduptokenstr`, `strindexfind` | DurationModel, LineModel |
| period.py, utcvalue.py | periods, their codec, UTC offset values | PeriodModel |
| utils.py | text and parameter codecs, pack functions, folding and unfolding of lines, `set_difference` | TextModel, LineModel, RecurSetModel |
| value.py, textvalue.py, multivalue.py, property.py, vcard property.py | value text, parameter and property line parsing and generation | TextModel, LineModel |
| value.py and the value classes, multivalue.py, property.py, icalendar/property.py, parameter.py, geovalue.py, requeststatusvalue.py | Property.parseText, generate, setupValueParameter, determineValueType, postCreateValue, equality; Python floats are an argument (`float`, `str`, `==`) | PropertyModel |
| parser.py | ParserContext switches | ParserCtx |
| icalendar/recurrence.py | parse, generate, setters, equality, hash, expand with cache, simpleExpand, complexExpand and every BY part function | RecurModel, RecurExpand |
| icalendar/recurrenceset.py | expand, the five lists | RecurSetModel |
| icalendar/vtimezone.py, vtimezoneelement.py | offset lookup with its caches, descriptor | VTimezoneModel |
| timezonedb.py | the whole class; a zone is any value with an ID, a file is what parsing it adds | TzDbModel |
| componentbase.py, containerbase.py, icalendar/component.py, componentrecur.py, calendar.py and the component classes | property dictionary, sorting, generate, finalise, addComponent, parse; caches that nothing modelled reads are left out; the uuid of an object is an argument | ComponentModel |
| componentbase.py, containerbase.py, validation.py, icalendar/validation.py, componentrecur.py and the component classes | validate and its tables; the rules of a component are the values of its RRULE properties | ValidateModel |
| icalendar/calendar.py, componentbase.py, component.py | index by UID, adding and removing components as objects, changeUID, masterComponent, component equality; hash(property) is an argument | CalendarModel |
| duplicate of componentbase.py, the component classes, icalendar/property.py and the value classes | copies as values; the uuid of a copy is an argument; that the copy shares no part with the original is not stated; mMaster only as object number | DupModel |
| icalendar/calendar.py:611-693, component.py:180-189, vavailability.py:103-114 | VTIMEZONEs that are added and taken out; the database is two functions | CalTzModel |
| icalendar/componentrecur.py:231-293, 350-484, vtodo.py:224-240, componentexpanded.py, calendar.py:448-457 | cached times of a component, expansion in a window; the parent of a component is an argument; dates are values | TimingModel |
| calendar.py (336-390), property.py (288-300) | deriveComponent, a property made from a date (TZID and VALUE) | DeriveModel.v |
| componentrecur.py (374-390, 503-620) | fixStartEnd, editTiming*, editRecurrenceSet, excludeRecurrence, a property made from a duration or a rule | EditModel.v |
| property.py (420-502), parameter.py (117-118), componentbase.py (320-356), containerbase.py (214-222), the parseJSONValue and writeJSONValue methods | JSON trees in and out (json.loads and json.dumps left out) | JsonModel.v |
| outputfilter.py, componentbase.py (284-298, 359-370, 405-422, 445-462, 572-596, 624-650), property.py (329-356, 479-502) | filters and filtered output in text and JSON | FilterModel.v |
| icalendar/property.py (187-232, 280-351), property.py (596-626) | properties made from values | MakeModel.v |
| icalendar/valarm.py (48-296, 312-338, 413-474, 503-679) | the cached state of alarms, edits and triggers | AlarmModel.v |
| icalendar/vfreebusy.py (46-319), icalendar/freebusy.py, icalendar/calendar.py (499-502, 559-599) | busy times and their cache, edits, free-busy methods | FreeBusyModel.v |
| vcard/card.py, vcard/property.py, vcard/n.py, adr.py, nvalue.py, adrvalue.py, orgvalue.py | reading, writing, duplicates, equality and construction of vCard properties and cards, without XML | VCardModel |
| icalendar/vevent.py, vtodo.py, componentrecur.py:487-501 | summary, status, priority, percentage and completion: cached fields and editing | StatusModel |
| xmlutils.py, componentbase.py:299-318, 415-436, 587-613, property.py:392-419, the writeXML methods of the values | the XML form of properties, components and calendars, whole and filtered | XmlModel |
| ../zonal/tzconvert.py:44-112, 133-139 | reading of tz source files, expandZone | TzFileModel |
| ../zonal/tzconvert.py:141-153; icalendar/calendar.py:611-622; icalendar/vtimezoneelement.py:41-90 | calendar of compiled zones, its text, getTimezone, the fields of the elements that are read | ZoneFileModel |
| ../zonal/tzconvert.py:114-131, 155-213 | Windows aliases, files of zones and links (the file system is a dictionary; parsing of the XML of the aliases and progress output are not modelled) | ZoneInfoModel |
| property.py:420-502; vcard/adr.py:102-106; vcard/n.py:101-105; vcard/orgvalue.py:43-47; vcard/card.py:158-170 | JSON of vCards | VCardJsonModel |
| vcard/card.py:39-58, vcard/validation.py, validation.py:33-43, componentbase.py:56-66, 199-262, containerbase.py:64-76 | validation and duplicates of vCards | VCardCheckModel |
| locale.py, datetime.py:536-547, 744-838, 1111-1113, timezone.py:105-117, manager.py | texts for display and the default time zone | LocaleModel |
| validator.py | the checking tool | ToolModel |
| value.py:56-65, multivalue.py:27, parameter.py:44-53, icalendar/property.py:241-251, vcard/property.py:188-204, componentbase.py:72-75, 150-157 | hashes, == of vCards | HashModel |
| instances.py | the tool that expands rules | InstancesModel |
| icalendar/componentrecur.py:132-137, 642-671 | setMaster, initFromMaster | MasterModel |
| icalendar/component.py:47-53, 84-175; icalendar/componentrecur.py:81-82, 151-165, 231-238; datetime.py:689-695; stringutils.py:101-102 | UID, sequence number and stamps | StampModel |
| property.py:552-573; multivalue.py:50-56; plaintextvalue.py:55-56; integervalue.py:57-58; utcoffsetvalue.py:112-113; valueutils.py:93-94; icalendar/property.py:260-278 | setting values | SetValueModel |
| property.py:122-145; parameter.py:30-75 | parameters, edited | ParamModel |
| componentbase.py:177-181; icalendar/recurrenceset.py:72-98 | removeProperty and equalsRules | MatchModel |
| property.py:36-83 (and 221-275, 337-360, 504-519, 575-594 with the tables it changes) | registerDefaultValue | RegisterModel |
| property.py:422-472 with the table of registerDefaultValue | parseJSON | RegJsonModel |
| icalendar/property.py:187-232, 280-351, property.py:596-626 with the tables of registerDefaultValue | Property(name, value, valuetype) | RegMakeModel |
| property.py:552-573 with the table of registerDefaultValue | setValue | RegSetModel |
| calendar.py:601-617 | getTimezoneOffsetSeconds, getTimezoneDescriptor, getTimezone, with the caches of all time zones | CalZonesModel |
| containerbase.py:80-96, 213-239; calendar.py:408-445; card.py:70-77, 158-170 | getText, parseData, parseMultipleData | FormatModel |
| recurrenceset.py:97-129, 251-295; recurrence.py:770-836 | isSimpleUI, isAdvancedUI, getUIRecurrence, getUIDescription, equalsDates, equalsPeriods, isSimpleRule, isAdvancedRule | RecurUIModel, RecurModel |
| calendar.py:203-306; timezonedb.py:117-124 | parseComponent, the reading of a file of the database | ReadOneModel |
| stringutils.py:68-89; componentbase.py:639-645 | strindexfind, strnindexfind, loadPrivateValue | UnusedModel |
| ../zonal/utils.py, rule.py, zone.py | lines, offsets, days of rules, UNTIL, expansion into transitions, VTIMEZONE components of a zone (as values; read_back says what reading their text gives) | ZonalModel, ZoneTzModel |

### Simplifications that a reader should know

* Python sets of DateTime objects are lists without `==`-and-hash duplicates; their iteration order is an
  arbitrary function `order` (a permutation), universally quantified.
* Objects that the code shares between two owners (for example the start date and window
  kept by `Recurrence.expand` for its cache) are copied in the model. A caller who changes such an object
  afterwards is not covered.
* The zone lookup of a floating DateTime goes to the default zone of the process. In the
  model this is one more case of `tzo`; so a VTIMEZONE whose own lookup needs the default zone does not
  recurse into itself in the model.
* Validation takes the rules of a component to be the values of its RRULE properties, as finalise leaves them;
  a caller who adds an RRULE afterwards is not covered. The text of ValidationError is left out, and so is that
  `VAlarm.validate` stores the tables of its action.
* `sort` with a key function is a stable insertion sort that evaluates the key once per element.

* `XML.tostring` of xml.etree (library code, not in the repository) is modelled by its documented behaviour in Python 2:
  the one namespace gets the prefix `ns0` and is declared in the first element, an element without text and children is
  written as `<tag />`, `&`, `<` and `>` are escaped in texts, and a byte string outside ASCII raises UnicodeDecodeError.

## 4. Not modelled

- `json.loads` and `json.dumps`, the XML parser, file I/O, the wall clock, unicode (as opposed to
  byte) strings, XML of vCards (there is no entry point for it).
- The digest in UIDs made by the library: C83 holds for any digest function.  Float arithmetic:
  the theorems hold for any functions that read, write and compare floats.  `hash` of Python's
  own objects: C80 holds for any hash function of tuples, texts and numbers.
- Functions that raise whatever they are given, as coded: `RecurrenceSet.equals`,
  `excludeFutureRecurrence`, `Calendar.getVToDos`, `getVFreeBusyFB`, the setters of the parts of
  `N` and `Adr`, `setToday`, `setNow`, `setNowUTC`, `VToDo.getStatusText`.  Where modelled functions call them, the model raises.
- `writePrivateProperty`, which nothing calls.
