{"id": "C01", "title": "Day count agrees with the Gregorian calendar", "statement": "DateTime.getPosixTime() of a UTC midnight is 86400 times the true number of days from 1970-01-01: it is 0 for 1970-01-01, and goes up by exactly 86400 when the date moves to the next Gregorian civil day. This holds for every date from 1901-01-01 to 2100-12-31 and for no larger interval of years (the step 2100-12-31 -> 2101-01-01 is off by one day, as is 1900-12-31 -> 1901-01-01).", "quantifier": "every valid civil date with year in 1901..2100; sharpness by witness at both ends; for every year after 1752 the exact error is given in closed form", "why_tests_cant": "There are infinitely many years; a unit test samples a few dates and the leap-day formula is only wrong at century years, decades away from test data.", "anchors": ["src/pycalendar/datetime.py:getPosixTime", "src/pycalendar/datetime.py:daysSince1970", "src/pycalendar/utils.py:leapDaysSince1970", "src/pycalendar/utils.py:daysUptoMonth", "src/pycalendar/utils.py:isLeapYear"]}
{"id": "C02", "title": "Weekday is the true weekday", "statement": "DateTime.getDayOfWeek() of every valid date from 1901 to 2100 is the Gregorian weekday: Thursday for 1970-01-01 and the next weekday for the next civil day.", "quantifier": "every valid date in 1901..2100, including negative day counts", "why_tests_cant": "The weekday calculation has a separate branch for dates before 1970; only a proof over all day counts shows both branches agree with the cyclic order.", "anchors": ["src/pycalendar/datetime.py:getDayOfWeek", "src/pycalendar/datetime.py:daysSince1970"]}
{"id": "C03", "title": "Normalisation is total, in range, and preserves the instant", "statement": "Whatever integers the six fields of a DateTime hold, calling any operation that normalises (offsetDay, offsetSeconds, setDay, ...) terminates, leaves month in 1..12, day in 1..daysInMonth, hours/minutes/seconds in range, does nothing to an already valid value, and shifting a valid date by k days lands on exactly the k-th next (or previous) civil day, for every integer k.", "quantifier": "all integer field values, all integer offsets k (positive and negative), all years", "why_tests_cant": "Carry propagation across months, leap years and 400-year cycles is an unbounded loop; tests only exercise small offsets.", "anchors": ["src/pycalendar/datetime.py:normalise", "src/pycalendar/datetime.py:offsetDay", "src/pycalendar/datetime.py:offsetSeconds", "src/pycalendar/datetime.py:offsetHours", "src/pycalendar/datetime.py:offsetMinutes"]}
{"id": "C04", "title": "Duration arithmetic on date-times is a group action", "statement": "(dt + d1) + d2 equals dt + (d1+d2), dt + d - d equals dt, and dt + Duration(0) equals dt, for all date-times with valid fields and all durations; and (dt + d) - dt gives back a duration of the same total length for UTC and floating date-times between 1901 and 2100. For date-only values the law fails, because each addition rounds down to a whole day (refuted). The difference of any two such values is the difference of what their clocks read, each taken to UTC with the offset of its zone; a floating value is read in the zone of the other one.", "quantifier": "all valid UTC or floating date-times, all integer-second durations", "why_tests_cant": "Requires all combinations of carry chains; sampled tests never cross all leap/century boundaries.", "anchors": ["src/pycalendar/datetime.py:__add__", "src/pycalendar/datetime.py:__sub__", "src/pycalendar/datetime.py:getPosixTime", "src/pycalendar/duration.py:getTotalSeconds"]}
{"id": "C05", "title": "Ordering of date-times with the same timezone is a total order that agrees with time", "statement": "For date-times in the same timezone (or when one of them is floating) the six comparison operators answer according to the seconds that pass on the calendar from one to the other; as soon as one is a date, according to the days between the dates. Hence exactly one of a<b, a==b, b<a holds and < is transitive within one zone; compare(b,a) is -compare(a,b) for all values. For values in 1901..2100 in different zones the answer is that of the posix times; within one zone this also holds when the zone has the same offset at both, and is false otherwise (refuted: clock change).", "quantifier": "all pairs and triples of DateTime values with valid fields, every timezone database", "why_tests_cant": "Transitivity and agreement are statements about all triples / all pairs.", "anchors": ["src/pycalendar/datetime.py:compareDateTime", "src/pycalendar/datetime.py:__lt__", "src/pycalendar/datetime.py:__gt__", "src/pycalendar/datetime.py:__eq__"]}
{"id": "C06", "title": "Equality across different kinds of date-time is not an equivalence", "statement": "a==b for DateTime is reflexive for all values and symmetric for all values whose month is in range; equal values that are neither floating nor dates have equal hashes; equality is transitive for values in UTC or numeric-offset zones. It is NOT transitive when floating values or dates are mixed in, nor for zoned times inside a skipped hour, and floating values are not hash-consistent (refuted by witnesses).", "quantifier": "all pairs/triples of DateTime values, all assignment of offsets to named zones", "why_tests_cant": "Needs reasoning over all triples; the failing combination (two zoned values and one floating) is not in the tests.", "anchors": ["src/pycalendar/datetime.py:compareDateTime", "src/pycalendar/datetime.py:__hash__", "src/pycalendar/datetime.py:getPosixTime", "src/pycalendar/timezone.py:same"]}
{"id": "C07", "title": "Cached posix time is never stale", "statement": "After any sequence of public field setters, offset operations, timezone setters, adjustments, recurrences, additions, successful parses and reads on a DateTime, getPosixTime() returns the value that a fresh object with the same visible fields returns, as long as adjustToUTC is used within 1901..2100 (or on an object with no cached posix time). Refuted without these conditions: adjustToUTC over the edge of 1901, and a parse() that raises half way.", "quantifier": "all finite sequences of operations, all starting values, all timezone offset tables", "why_tests_cant": "Cache staleness depends on the history of calls; the number of histories is unbounded.", "anchors": ["src/pycalendar/datetime.py:getPosixTime", "src/pycalendar/datetime.py:changed", "src/pycalendar/datetime.py:setYear", "src/pycalendar/datetime.py:setYYMMDD", "src/pycalendar/datetime.py:setTimezone", "src/pycalendar/datetime.py:adjustToUTC", "src/pycalendar/datetime.py:parse"]}
{"id": "C08", "title": "Day-of-year and day-of-month setters invert their getters", "statement": "setYearDay(n) followed by getYearDay() gives n for 1<=n<=days in year and for negative n the n-th day from the end; setMonthDay(n) gives the n-th day (or n-th from the end) of the same month; isMonthDay(n) is true iff the date is that day.", "quantifier": "all valid dates, all n in the documented range, all years", "why_tests_cant": "Leap and non leap years for all n in both directions, for all years.", "anchors": ["src/pycalendar/datetime.py:setYearDay", "src/pycalendar/datetime.py:getYearDay", "src/pycalendar/datetime.py:setMonthDay", "src/pycalendar/datetime.py:isMonthDay", "src/pycalendar/utils.py:daysUptoMonth"]}
{"id": "C09", "title": "n-th weekday of month/year is exact", "statement": "setDayOfWeekInMonth(n, wd) moves a date to the n-th (or n-th last) weekday wd of its month: the result has weekday wd and exactly n-1 earlier (later) days with that weekday in the month; the same for setDayOfWeekInYear; isDayOfWeekInMonth(n, wd) is true iff the date is such a day.", "quantifier": "all dates in 1901..2100, all weekdays, all n for which such a day exists, both signs", "why_tests_cant": "Each (year, month, weekday, n, sign) combination is a different arithmetic case.", "anchors": ["src/pycalendar/datetime.py:setDayOfWeekInMonth", "src/pycalendar/datetime.py:setDayOfWeekInYear", "src/pycalendar/datetime.py:isDayOfWeekInMonth"]}
{"id": "C10", "title": "Week number is the ISO 8601 week number", "statement": "getWeekNo() of any valid date from 1901 to 2100 equals the ISO week number: the week (Monday to Sunday) containing the date belongs to the year that contains its Thursday, numbered from 1; isWeekNo(n) for n>0 says whether n is that number.", "quantifier": "every valid date in 1902..2099", "why_tests_cant": "53-week years and the year boundary give 14 different year types times leap cycles; the claim is for all dates.", "anchors": ["src/pycalendar/datetime.py:getWeekNo", "src/pycalendar/datetime.py:isWeekNo"]}
{"id": "C11", "title": "setWeekNo lands in the requested week", "statement": "setWeekNo(n) leaves a date that is in ISO week n alone, and moves any other, with its weekday and time, to the week n-1 weeks after the first ISO week of its year: exactly that week if the date and 1 January of its year are both Sundays or both not, one week early if the date is a Sunday and 1 January is not, one week late if 1 January is a Sunday and the date is not. So getWeekNo()==n afterwards holds exactly in the first case (the claim for all dates is refuted).", "quantifier": "all valid dates in 1901..2100, all week numbers from 1 (1..52 for the number of the week reached)", "why_tests_cant": "Quantifies over all dates and all weeks; the failing case needs a Sunday start.", "anchors": ["src/pycalendar/datetime.py:setWeekNo", "src/pycalendar/datetime.py:getWeekNo"]}
{"id": "C12", "title": "Date and date-time text round trip", "statement": "For every DateTime whose fields fit their columns (year 0..9999, two digits for the others), parsing the text produced by getText() gives back a new object with exactly what the text says: the date, the time, the date-only and UTC flags, and a numeric zone (with fullISO); the same for the XML/JSON text.", "quantifier": "all valid field values, both textual forms, floating, UTC, date-only", "why_tests_cant": "Infinitely many values; padding and separators must never be ambiguous.", "anchors": ["src/pycalendar/datetime.py:getText", "src/pycalendar/datetime.py:getXMLText", "src/pycalendar/datetime.py:parse", "src/pycalendar/datetime.py:parseDate", "src/pycalendar/datetime.py:parseTime"]}
{"id": "C13", "title": "Date-time parser fails only with ValueError", "statement": "DateTime.parse on any byte string, in either syntax and on any object, either succeeds or raises ValueError: no IndexError or other exception escapes, and it always terminates; the year, month and day it accepts are never negative. It is refuted that everything accepted is a date-time: negative hours, month 99 and 7-character dates are accepted. In the iCalendar syntax exactly the texts made of the columns YYYYMMDD or YYYYMMDDThhmmss with an optional final Z are accepted, each number read as int() does, with exactly those fields as the result.", "quantifier": "every byte string, both syntaxes, each leading-space policy", "why_tests_cant": "All inputs; fuzzing can only sample.", "anchors": ["src/pycalendar/datetime.py:parse", "src/pycalendar/datetime.py:parseDate", "src/pycalendar/datetime.py:parseTime", "src/pycalendar/datetime.py:parseFractionalAndUTCOffset"]}
{"id": "C14", "title": "Duration total-seconds and field decomposition", "statement": "Duration(duration=n).getTotalSeconds()==n for every integer n; weeks are used exactly when n is a whole number of weeks, and otherwise days/hours/minutes/seconds are the mixed radix digits.", "quantifier": "every integer n, both signs", "why_tests_cant": "Unbounded integers.", "anchors": ["src/pycalendar/duration.py:setDuration", "src/pycalendar/duration.py:getTotalSeconds"]}
{"id": "C15", "title": "Duration text round trip", "statement": "parseText(getText(d)) equals d for every duration, with the same total seconds; parse on any byte string either succeeds or raises ValueError.", "quantifier": "every duration value, every byte string", "why_tests_cant": "All field combinations with optional parts; all inputs.", "anchors": ["src/pycalendar/duration.py:parse", "src/pycalendar/duration.py:generate", "src/pycalendar/stringutils.py:strtoul"]}
{"id": "C16", "title": "Duration.parse on a reused object", "statement": "Calling parse on an existing Duration object depends only on the text, not on the value the object held before. FALSE as the code stands: fields not mentioned in the text keep old values (refuted); true when the object was freshly created.", "quantifier": "all prior states, all texts", "why_tests_cant": "Statement over all histories of the object.", "anchors": ["src/pycalendar/duration.py:parse"]}
{"id": "C17", "title": "Period interval semantics", "statement": "For periods of times in one zone, of dates, or of times in UTC and numeric zones: isDateWithinPeriod is start<=t<end and exactly the complement of before and after; two non-empty periods overlap iff they have a common instant, symmetrically (refuted when one is empty); == and < compare (start, end) pairs; p > q raises (refuted); getEnd() == getStart()+getDuration() whichever of the two was supplied for UTC, numeric and floating times (refuted across a daylight saving change); setUseDuration keeps start and end.", "quantifier": "all pairs of periods and instants", "why_tests_cant": "All orderings of four end points, with both representations.", "anchors": ["src/pycalendar/period.py:isPeriodOverlap", "src/pycalendar/period.py:isDateWithinPeriod", "src/pycalendar/period.py:getEnd", "src/pycalendar/period.py:getDuration"]}
{"id": "C18", "title": "Period text round trip", "statement": "A period with an explicit end or a non-negative duration written as text or jCal and parsed again is the same period; with a negative duration the written text never parses (refutation). Parsing raises only ValueError on objects that have an end; an object that holds a duration raises AttributeError on start/end text (refutation). After a successful parse nothing of the object's old end or duration is left.", "quantifier": "all valid periods", "why_tests_cant": "Composition of two unbounded codecs.", "anchors": ["src/pycalendar/period.py:parse", "src/pycalendar/period.py:generate"]}
{"id": "C19", "title": "UTC offset round trip", "statement": "For every offset v with |v| < 100 hours, parse(generate(v)) = v in the iCalendar and vCard/jCal syntaxes; the XML form reads back exactly for whole minutes; parse on any text raises only ValueError. Larger offsets may be read back as other values and some texts that are no offsets are accepted (refutations).", "quantifier": "every integer |v|<360000; every byte string", "why_tests_cant": "720000 values and all strings; sign with zero hours is the classic mistake.", "anchors": ["src/pycalendar/utcoffsetvalue.py:parse", "src/pycalendar/utcoffsetvalue.py:generate"]}
{"id": "C20", "title": "Text value escaping round trip", "statement": "decodeTextValue(escaped text) returns the original text for every text, and the escaped text contains no raw CR, LF and no unescaped ';' or ','.", "quantifier": "every byte string (including CR, LF, backslashes, semicolons, commas in any arrangement)", "why_tests_cant": "Arbitrary interleavings of special characters.", "anchors": ["src/pycalendar/utils.py:writeTextValue", "src/pycalendar/utils.py:decodeTextValue", "src/pycalendar/utils.py:escapeTextValue"]}
{"id": "C21", "title": "Decoding never crashes under lenient policies and raises only ValueError under strict", "statement": "decodeTextValue terminates on every text; with policies FIX/IGNORE it always returns; it raises ValueError exactly when some escape character (after pairing backslashes from the left) is not one of r n N \\ , ; and its policy (colon, or other) is RAISE, and otherwise returns the text with each escape replaced by what it stands for and a final lone backslash dropped.", "quantifier": "every byte string, every policy combination", "why_tests_cant": "All strings.", "anchors": ["src/pycalendar/utils.py:decodeTextValue", "src/pycalendar/parser.py:ParserContext"]}
{"id": "C22", "title": "Parameter value encoding round trip (RFC 6868)", "statement": "decodeParameterValue(encodeParameterValue(s)) is s with CRLF and lone CR turned into LF, for every s; the encoded form contains no double quote and no newline. Any text, written by the encoder or not, decodes as RFC 6868 says: ^n, ^' and ^^ are a newline, a double quote and a caret, any other caret stands for itself.", "quantifier": "every byte string", "why_tests_cant": "Interaction of ^ escapes with quote/newline characters in arbitrary order.", "anchors": ["src/pycalendar/utils.py:encodeParameterValue", "src/pycalendar/utils.py:decodeParameterValue"]}
{"id": "C23", "title": "Property line round trip", "statement": "A property line with a name, any parameters (each with any list of values) and a raw value, written with getText(), is read back by parseText() with the same name, the same raw value and the same parameters (values of one parameter in sorted order), for iCalendar lines and, with an optional group, for vCard lines; reading and writing again gives the same text. Conditions: values hold no CR, values written without quotes do not start with a blank, and values written in quotes do not end in an odd number of backslashes. With such a backslash the line cannot be read back (refutation).", "quantifier": "all names made of token characters, all parameter lists, all value texts", "why_tests_cant": "Unbounded lists of parameters whose values need quoting in any combination.", "anchors": ["src/pycalendar/property.py:parseText", "src/pycalendar/property.py:parseTextParameters", "src/pycalendar/property.py:generateValue", "src/pycalendar/parameter.py:generate", "src/pycalendar/stringutils.py:strduptokenstr"]}
{"id": "C24", "title": "Line folding is lossless, bounded and keeps UTF-8 characters whole", "statement": "For any property line of well-formed UTF-8 without CR or LF, each physical line written is at most 75 octets excluding the line break (74 in fact), no UTF-8 sequence is split across lines, unfolding (dropping CRLF and one space) gives back the line, and reading a file of any number of such lines with readFoldedLine gives back all the lines. Whatever the octets, no octet is lost or added by a fold that terminates.", "quantifier": "every line of valid UTF-8 without CR/LF, of any length", "why_tests_cant": "Lengths are unbounded and the interaction of the 74/73 limits with multi byte characters has many alignments.", "anchors": ["src/pycalendar/property.py:generateValue", "src/pycalendar/utils.py:readFoldedLine"]}
{"id": "C25", "title": "Line folding terminates", "statement": "Writing a property terminates for every value. FALSE: for a line which starts with a character, writing runs for ever exactly when 73 consecutive continuation octets (10xxxxxx) occur somewhere from the third octet on, and it terminates in all other cases, in particular for all valid UTF-8.", "quantifier": "every byte string", "why_tests_cant": "Non-termination cannot be observed by a test as such and depends on adversarial bytes.", "anchors": ["src/pycalendar/property.py:generateValue"]}
{"id": "C26", "title": "vCard parameter parsing terminates", "statement": "Parsing the parameters of any vCard line terminates. FALSE: text directly after a closing quote, as in X;P=\"a\"b:c, makes the parser loop for ever (refuted); each state either makes progress or is stuck for ever, so the outcome is decided after at most one round per character. The iCalendar parser terminates on every input.", "quantifier": "every byte string", "why_tests_cant": "Divergence for adversarial input; universally quantified over all inputs.", "anchors": ["src/pycalendar/vcard/property.py:parseTextParameters", "src/pycalendar/property.py:parseTextParameters"]}
{"id": "C27", "title": "Text lists and structured values round trip", "statement": "parseTextList(generateTextList(items)) returns the items exactly when no item other than the last ends with a backslash (otherwise such an item is merged with the next one), and the two level lists of ADR/N likewise up to padding and one-element tuples; text list parsing raises nothing but ValueError, and two level lists have exactly the requested number of components unless the policy allows more.", "quantifier": "all lists (and lists of lists) of strings", "why_tests_cant": "Unbounded lists; separator escaping in any arrangement.", "anchors": ["src/pycalendar/utils.py:parseTextList", "src/pycalendar/utils.py:generateTextList", "src/pycalendar/utils.py:parseDoubleNestedList", "src/pycalendar/utils.py:generateDoubleNestedList"]}
{"id": "C28", "title": "packDate/unpackDate round trip", "statement": "unpackDate(packDate(y,m,d)) = (y,m,d) and the three single-field unpackers agree, for 0<=y<65536, 0<=m<=255, -128<=d<=127; packed values are ordered like the dates.", "quantifier": "all such triples", "why_tests_cant": "2^32 combinations; bit operations.", "anchors": ["src/pycalendar/utils.py:packDate", "src/pycalendar/utils.py:unpackDate", "src/pycalendar/utils.py:unpackDateYear", "src/pycalendar/utils.py:unpackDateMonth", "src/pycalendar/utils.py:unpackDateDay"]}
{"id": "C29", "title": "Recurrence rule text round trip", "statement": "Parsing the text generated for a recurrence rule gives an equal rule, for every rule built from valid parts; so does any reordering of the parts of the text, and the JSON form in any key order. Equality ignores the order inside each list; hash() does not (equal rules can hash differently).", "quantifier": "all frequencies, intervals, counts, untils, all lists for the BY parts, all permutations of the parts", "why_tests_cant": "Unbounded lists for nine BY parts.", "anchors": ["src/pycalendar/icalendar/recurrence.py:parse", "src/pycalendar/icalendar/recurrence.py:generate", "src/pycalendar/icalendar/recurrence.py:equals"]}
{"id": "C30", "title": "Recurrence rule parser is strict", "statement": "Recurrence.parse on any text either produces a rule or raises ValueError; an accepted rule never has COUNT together with UNTIL, an INTERVAL or COUNT below 1, or numbers outside the RFC ranges (BYSETPOS is unlimited), and no BY part occurs twice. A missing FREQ and repeated FREQ or COUNT are accepted, which the claim of strictness would forbid.", "quantifier": "every text", "why_tests_cant": "All inputs.", "anchors": ["src/pycalendar/icalendar/recurrence.py:parse", "src/pycalendar/icalendar/recurrence.py:parseList"]}
{"id": "C31", "title": "Simple recurrence expansion is exactly the arithmetic progression in the window", "statement": "For a rule without BY parts, Recurrence.expand from a start over a window returns exactly the rule's instances inside the window, in increasing order and each once: start + k*INTERVAL*unit for SECONDLY to WEEKLY; the same day of the month every INTERVAL months or years where that day exists for MONTHLY and YEARLY; cut off by COUNT (counting existing days only) or UNTIL (inclusive, moved by the float offset for floating starts); the start itself is never cut off. The returned flag is true iff some instance lies outside the window. maxInstances raises TooManyInstancesError iff more instances than that precede the window's end. FALSE that the call always returns: a date-only start with an HOURLY, MINUTELY or SECONDLY rule, and 29 February 1700 with a step of 400 years, loop for ever (refuted).", "quantifier": "all rules without BY parts, all starts, intervals, counts, untils and windows on one scale (one zone, or dates)", "why_tests_cant": "The expansion loop is unbounded; off-by-one at COUNT, UNTIL and window edges must be excluded for all windows.", "anchors": ["src/pycalendar/icalendar/recurrence.py:simpleExpand", "src/pycalendar/icalendar/recurrence.py:expand", "src/pycalendar/datetime.py:recur"]}
{"id": "C32", "title": "Expansion respects DTSTART, COUNT and UNTIL", "statement": "For every rule with BY parts, every item returned by Recurrence.expand on a new rule is not before the start, inside the window, not after UNTIL, and a member of the set generated for some interval; with COUNT=n at most n-1 are returned (the start is counted, not returned). complexExpand returns exactly the generated candidates, in order, from the start on, up to the first one that is at or after the end of the window or after UNTIL, or until COUNT is reached. Rules without BY parts return at most max(1, COUNT). FALSE: a start after UNTIL is still returned; an instance can be returned twice (refuted).", "quantifier": "all rules, starts, windows, timezone databases and results, including calls that raise", "why_tests_cant": "Rules combine many expansions and limits; all combinations must respect the bounds.", "anchors": ["src/pycalendar/icalendar/recurrence.py:expand", "src/pycalendar/icalendar/recurrence.py:simpleExpand", "src/pycalendar/icalendar/recurrence.py:complexExpand"]}
{"id": "C33", "title": "Recurrence cache is transparent", "statement": "After any series of expand calls (any starts and windows on one scale, one float offset, no maxInstances) and setter calls, expand on a rule without BY parts gives the same instants and the same flag as on a new rule object, and on a rule with the BY parts of C49 it gives exactly the instances of the rule in the window, in order. FALSE when the float offset changes, when a date replaces an equal date-time as the start, after a call that raised TooManyInstancesError, and for rules with BY parts whose yearly sets overlap (each refuted by a witness).", "quantifier": "all histories of expand and setter calls", "why_tests_cant": "History dependence.", "anchors": ["src/pycalendar/icalendar/recurrence.py:expand", "src/pycalendar/icalendar/recurrence.py:clear"]}
{"id": "C34", "title": "BY-part limits and expansions are exact", "statement": "The limit functions for BYMONTH, BYWEEKNO (positive numbers), BYMONTHDAY, BYDAY, BYHOUR, BYMINUTE and BYSECOND keep, in order, exactly the dates that match a listed value; the expansions for BYHOUR, BYMINUTE, BYSECOND, BYMONTH and BYMONTHDAY produce one value per date and listed value. Together, the set generated for one interval (DAILY and finer, WEEKLY, MONTHLY, YEARLY with BYMONTH/BYMONTHDAY, YEARLY with BYDAY) holds exactly the existing dates and times required by RFC 5545, in time order. Not so for BYYEARDAY, negative BYWEEKNO, the 53rd weekday of a year, yearly BYMONTHDAY without BYMONTH, and dates picked twice (refuted by witnesses).", "quantifier": "all date lists, value lists, rules and starts in the years 1901 to 2100", "why_tests_cant": "Unbounded lists and all dates.", "anchors": ["src/pycalendar/icalendar/recurrence.py:byMonthExpand", "src/pycalendar/icalendar/recurrence.py:byMonthDayExpand", "src/pycalendar/icalendar/recurrence.py:byDayLimit", "src/pycalendar/icalendar/recurrence.py:byMonthLimit", "src/pycalendar/icalendar/recurrence.py:byMonthDayLimit", "src/pycalendar/icalendar/recurrence.py:byHourExpand"]}
{"id": "C35", "title": "BYSETPOS picks the right positions", "statement": "bySetPosLimit sorts its list by time and returns exactly the n-th elements (1-based, negative from the end) for the listed positions n, ignoring positions beyond the list; the set of an interval of a rule with BYSETPOS holds exactly the elements at these positions of the set the rule has without BYSETPOS.", "quantifier": "all lists and all position lists", "why_tests_cant": "Index arithmetic for all lengths.", "anchors": ["src/pycalendar/icalendar/recurrence.py:bySetPosLimit"]}
{"id": "C36", "title": "Recurrence set algebra", "statement": "RecurrenceSet.expand returns exactly (start + RRULE + RDATE) minus (EXRULE + EXDATE) inside the window (a PERIOD counts with its start when it overlaps the window), each instant once, sorted when nothing is excluded; the result False means that the window left nothing out.", "quantifier": "all sets of rules covered by C31 and C49, expanded any number of times before from starts in the same zone, with rules, dates and periods added or removed in between and changed() called before the float offset or zone is switched; dates and periods in the zone of the start, all windows, all iteration orders of Python sets", "why_tests_cant": "Set algebra over unbounded collections.", "anchors": ["src/pycalendar/icalendar/recurrenceset.py:expand", "src/pycalendar/utils.py:set_difference"]}
{"id": "C37", "title": "Timezone offset lookup picks the latest transition", "statement": "VTimezone.getTimezoneOffsetSeconds terminates and returns the offset in force: the offset to which the latest onset (DTSTART, RRULE instance or RDATE of an element, on the local clock or in UTC as asked) not after the given time leads, and 0 if there is none; whatever was asked of the object before (onsets asked about in UTC in the same order on both clocks, up to the last year asked about). FALSE for onsets that are not on whole minutes (the cache key omits seconds) and for questions about UTC close to the new year that ends the cached table (both refuted).", "quantifier": "all lists of STANDARD/DAYLIGHT elements with rules covered by C31 and C49 and any RDATEs, all histories of offset and name questions, all times in the years 1902 to 2097, all iteration orders of sets", "why_tests_cant": "Unbounded histories of cached answers, unbounded recurrences and tables of any length.", "anchors": ["src/pycalendar/icalendar/vtimezone.py:getTimezoneOffsetSeconds", "src/pycalendar/icalendar/vtimezone.py:tuple_bisect_right", "src/pycalendar/icalendar/vtimezone.py:expandAll", "src/pycalendar/icalendar/vtimezoneelement.py:expandAll", "src/pycalendar/icalendar/vtimezoneelement.py:expandBelow"]}
{"id": "C38", "title": "Which files the timezone database opens", "statement": "Every file that any sequence of calls on the timezone database opens has a path that begins with the configured directory string, and is the file \"TZID.ics\" resolved from that directory for some TZID. If the directory is configured with a final \"/\", only files below it are opened. Without it, files in sibling entries whose name begins with the directory name can be opened as well (refuted: \"never outside the directory\"), and nothing else. With \".\" as the directory, files of the parent are opened and those of the directory are not (refuted). An ordinary TZID opens exactly dir/TZID.ics.", "quantifier": "all file systems, absolute database paths of ordinary names, all TZID strings, all sequences of setPath (to the same directory), clear, lookup, isStandard, add and merge calls; no symbolic links", "why_tests_cant": "Adversarial TZIDs and call sequences are unbounded; the escapes need particular sibling names.", "anchors": ["src/pycalendar/timezonedb.py:TimezoneDatabase.cacheTimezone", "src/pycalendar/timezonedb.py:TimezoneDatabase._getTimezone"]}
{"id": "C39", "title": "Component tree text round trip", "statement": "Generating a calendar (typed properties in the domain of C52 and nested components of every class to any depth) and parsing the text gives back a calendar with, in every component, the same properties of each name in the same order, and the same sub-components. If additionally every component is finalised and the sort keys come from properties (UID, TZID, DTSTART, ACTION and TRIGGER), generating what was parsed gives the same text. Without UIDs the second text can differ (refuted by a witness).", "quantifier": "all finite calendars meeting the conditions; all uuid sequences, parser settings and float implementations", "why_tests_cant": "Unbounded depth and width.", "anchors": ["src/pycalendar/containerbase.py:parse", "src/pycalendar/componentbase.py:generate"]}
{"id": "C40", "title": "Component parser rejects unbalanced input", "statement": "If the parser returns an object then every BEGIN in the consumed text was closed by its matching END. FALSE: an END of the calendar inside an open component is accepted and the open component is dropped; an END of another component is taken for a property; a component can begin in one calendar and end in the next; a calendar in a calendar ends both (all refuted by witnesses). What holds: parsing returns a given object if and only if the unfolded lines derive it in an explicit grammar of calendars, properties, blank lines and complete components, with an optional cut-off tail, and it has a VERSION. Every object that is returned has in each component only components that it may hold, such as alarms in events and to-dos.", "quantifier": "all texts and all resulting objects", "why_tests_cant": "All inputs; parser state machine.", "anchors": ["src/pycalendar/containerbase.py:parse"]}
{"id": "C41", "title": "Written property order is a permutation with fixed priorities", "statement": "sortedPropertyKeys yields every property name exactly once, with the fixed names of the component class first in the documented order and the rest in byte order; sortedComponents yields each sub-component exactly once, in calendars by type and then sort key, and components of equal rank keep their order.", "quantifier": "all component classes, dictionaries and component lists", "why_tests_cant": "All key sets.", "anchors": ["src/pycalendar/componentbase.py:sortedPropertyKeys", "src/pycalendar/componentbase.py:sortedComponents"]}
{"id": "C42", "title": "Validation is read-only unless asked to fix, and fixing converges", "statement": "validate(doFix=False) leaves the component unchanged, also when it raises. validate(doFix=True) changes only what its repairs say: a missing DESCRIPTION or SUMMARY of an alarm is added empty, several STATUS of which one is CANCELLED become that one, a property that excludes another one is removed, UNTIL takes the value type of DTSTART; the fixed list names exactly those. A second run, in either mode, then changes nothing, fixes nothing and reports exactly the problems that no repair touched. doRaise raises ValidationError exactly when problems are left. False: that the second run reports all the problems the first run left (two DTEND beside a DURATION are reported and gone); that no other exception is raised (STATUS whose value is not text); that the repair of UNTIL keeps the last occurrence.", "quantifier": "all component trees with any multiset of properties and nesting, both modes, any iteration order of the property dictionary", "why_tests_cant": "All property multisets.", "anchors": ["src/pycalendar/componentbase.py:validate", "src/pycalendar/icalendar/vevent.py:validate", "src/pycalendar/icalendar/componentrecur.py:validate"]}
{"id": "C43", "title": "UID index coherent with component list", "statement": "After any sequence of adding, removing and editing components and of changing UIDs, the calendar's index by type and UID names exactly the masters it holds, and its list for each UID exactly the overridden instances it holds, in their order (so the recurrence ids that expansion leaves out are theirs). Removing a component raises nothing and takes out this one. changeUID changes the UID, cached and as property, of exactly the components that had the old one. The sequences: no two masters with the same type and UID at once, the removed component is unlike the others, the new UID is not in use. False otherwise: two masters with one UID (KeyError on removal), changeUID to the same or to a used UID (the index forgets components), removeAllComponent() (the index keeps them all). getComponentByKey may give a component with another UID.", "quantifier": "all operation sequences on all components", "why_tests_cant": "History dependent.", "anchors": ["src/pycalendar/icalendar/calendar.py:addComponent", "src/pycalendar/icalendar/calendar.py:removeComponent", "src/pycalendar/icalendar/calendar.py:changeUID"]}
{"id": "C44", "title": "Zone compiler local time / UTC conversions", "statement": "In the tz compiler, a transition time expressed in wall-clock, standard or UTC mode converts to local time and UTC such that local - UTC is the total offset, in every mode and for every offset pair. In mode u UTC is the written time, in mode s the written time is the standard offset after UTC, otherwise the written time is the local time. The suffixes g and z, which also mean UTC in tz files, are taken for local time (refuted).", "quantifier": "all dates, all offsets, all modes", "why_tests_cant": "All carries across day/month/year.", "anchors": ["src/zonal/utils.py:getLocaltime", "src/zonal/utils.py:getUTC"]}
{"id": "C45", "title": "Zone rule day selection", "statement": "A tz rule's ON field ('lastSun', 'Sun>=8', or a day number) selects the right day in every year (the last such weekday, the first on or after, that day), at the time of the AT field h or h:mm with its suffix. The form 'Sun<=25' (last on or before), 24:00, seconds and a suffix without minutes are NOT handled (refuted). The BY parts (BYDAY, BYMONTHDAY) that the compiler makes for a rule 'w>=n' select, in every year whose month has the same length, the day of the rule, also when conversion to local time moved it by a day; FALSE for other month lengths and when a rule day on the 1st is moved back (refuted).", "quantifier": "every year 1901..2100, month, weekday, day number; for the BY parts every year with the same month length", "why_tests_cant": "All years/weekday combinations.", "anchors": ["src/zonal/rule.py:datetimeForYear", "src/zonal/rule.py:getOnDayDetails"]}
{"id": "C46", "title": "Zone/rule offset strings keep their sign", "statement": "Offset strings such as -0:30 or -1:30 are converted to the right number of seconds by the Zone offset converter, for every text [sign]h[:mm[:ss]] with any number of leading zeros. FALSE for the other two converters (refuted): the SAVE converter is right exactly unless the text is negative with zero hours and non-zero minutes (and it drops minutes when seconds are given); the numeric RULES converter is right exactly when it is not negative with non-zero minutes and has no seconds.", "quantifier": "all offset strings [+-]h[:mm[:ss]]", "why_tests_cant": "Zero-hour negative offsets are rare.", "anchors": ["src/zonal/rule.py:getOffset", "src/zonal/zone.py:getUTCOffset", "src/zonal/zone.py:getNumericOffset"]}
{"id": "C47", "title": "DateTime.parse on a reused object", "statement": "Parsing the iCalendar syntax into an existing DateTime object succeeds or fails depending only on the text, and determines the date, date-only flag and (when the text has a time) the time and UTC flag; the TZID is kept, and for a date-only text the previous time and UTC flag are kept, so that the resulting instant depends on the old value (refutation of 'depends only on the text').", "quantifier": "all texts, all previous states of the object", "why_tests_cant": "Tests parse into fresh objects; the leftover state only shows for particular pairs of old value and text.", "anchors": ["src/pycalendar/datetime.py:parse", "src/pycalendar/datetime.py:parseDate", "src/pycalendar/datetime.py:parseTime"]}
{"id": "C48", "title": "Changing a rule through its setters takes effect", "statement": "Every setter of Recurrence other than setUntil assigns the value and empties the cache unless the rule had that value already. FALSE for setUntil: a value that compares equal (midnight on the same date) is ignored. FALSE for duplicate(): a copy of a rule with an unused UNTIL value is not equal to it (refuted).", "quantifier": "all rules, caches and values", "why_tests_cant": "Silent loss of a change depends on how the old and new values compare.", "anchors": ["src/pycalendar/icalendar/recurrence.py:_setAndclearIfChanged", "src/pycalendar/icalendar/recurrence.py:duplicate"]}
{"id": "C49", "title": "Expansion of rules with BY parts returns exactly the instants RFC 5545 prescribes", "statement": "For a rule with BY parts (without COUNT, BYSETPOS, YEARLY BYWEEKNO, and BYYEARDAY for MONTHLY and YEARLY) Recurrence.expand terminates and returns exactly the times in the window, not before the start and not after UNTIL, that RFC 5545 section 3.3.10 lets the parts select in the intervals of the rule, in time order; each once when the parts only limit. If the result says nothing was left out, the rule has no instance outside the window. Holds for UTC, numeric zones, dates, and every zone in which a later clock reading is a later time. FALSE for a zone with a gap: a time inside the gap can be missing from the result (refuted).", "quantifier": "all rules of this form, all starts, windows and UNTIL values in the years 1902 to 2099, all timezone databases with an ordered clock", "why_tests_cant": "The loop over intervals is unbounded and the parts combine in unboundedly many ways.", "anchors": ["src/pycalendar/icalendar/recurrence.py:complexExpand", "src/pycalendar/icalendar/recurrence.py:expand", "src/pycalendar/icalendar/recurrence.py:generateMonthlySet", "src/pycalendar/icalendar/recurrence.py:generateWeeklySet", "src/pycalendar/icalendar/recurrence.py:generateYearlySet"]}
{"id": "C50", "title": "Time zone descriptor names the element in force", "statement": "VTimezone.getTimezoneDescriptor returns the name in parentheses, or else the offset text, of the element in force at the given time, and the empty text before all onsets, whatever was asked before, provided that the only onsets from 1 January of the year to the time are DTSTARTs. FALSE otherwise: after a recurring onset in the same year the name of the old season is returned (refuted).", "quantifier": "all lists of elements as in C37, all histories of questions, all times in the years 1902 to 2097", "why_tests_cant": "Unbounded histories and recurrences.", "anchors": ["src/pycalendar/icalendar/vtimezone.py:getTimezoneDescriptor", "src/pycalendar/icalendar/vtimezone.py:findTimezoneElement", "src/pycalendar/icalendar/vtimezoneelement.py:expandBelow"]}
{"id": "C51", "title": "Timezone lookups do not depend on history", "statement": "After any sequence of lookups, isStandardTimezone questions and merges of zones from calendars, a TZID stands for its definition in the database directory, or else for the first definition merged; isStandardTimezone is True exactly for the TZIDs that the directory defines. With addTimezone in between, the isStandardTimezone answer depends on the order of the calls (refuted).", "quantifier": "all database directories whose files each hold one zone under the path its TZID names, all sequences of lookup, isStandard and merge calls, all TZIDs (None included); a NUL byte in a TZID may raise TypeError", "why_tests_cant": "The answer is a function of an unbounded call history through three caches.", "anchors": ["src/pycalendar/timezonedb.py:TimezoneDatabase._getTimezone", "src/pycalendar/timezonedb.py:TimezoneDatabase._isStandardTimezone", "src/pycalendar/timezonedb.py:TimezoneDatabase.mergeTimezone"]}
{"id": "C52", "title": "Typed property lines round-trip", "statement": "The line written for an iCalendar property is read back as a property with the same name, the same parameters (VALUE aside) and the same value, and writing that gives the same line again. The value that is read has the type that the VALUE parameter names, or else the RFC 5545 default type of the property, and it is a list exactly for the list-valued properties. Exceptions, each refuted by a witness: texts of properties with unknown names, VALUE=TIME and BOOLEAN, texts with commas in lists, VALUE=TEXT on GEO, lines without a value separator, a TZID on a UTC time or a period, several TZIDs, a VALUE parameter in lower case, REQUEST-STATUS with the strict policy.", "quantifier": "all properties with legal names and parameters and values of any of the 15 value classes (any texts, integers, rules, dates, durations, periods; lists of any length), all parser contexts, all float implementations; for types: all content lines", "why_tests_cant": "Value, type table, VALUE and TZID parameters, escaping, sorting and list splitting interact; the combinations and the texts are unbounded.", "anchors": ["src/pycalendar/property.py:PropertyBase.parseText", "src/pycalendar/property.py:PropertyBase.generateValue", "src/pycalendar/property.py:PropertyBase.setupValueParameter", "src/pycalendar/property.py:PropertyBase.determineValueType", "src/pycalendar/icalendar/property.py:Property.postCreateValue", "src/pycalendar/multivalue.py:MultiValue.parse"]}
{"id": "C53", "title": "tz source lines are read and written back", "statement": "Lines of tz source files are split into fields at any run of blanks and tabs; a Rule, a RuleSet, a zone line and a Zone written by generate() are read back by parse() as equal objects. A RuleSet refuses a line with two blanks after 'Rule' that a Rule accepts (refuted).", "quantifier": "all field texts without blanks or line feeds, any layout of blanks, any number of lines", "why_tests_cant": "Layouts and field contents are unbounded.", "anchors": ["src/zonal/rule.py:Rule.parse", "src/zonal/rule.py:Rule.generate", "src/zonal/rule.py:RuleSet.parse", "src/zonal/rule.py:RuleSet.generate", "src/zonal/zone.py:Zone.parse", "src/zonal/zone.py:Zone.generate", "src/zonal/zone.py:ZoneRule.parse", "src/zonal/zone.py:ZoneRule.generate"]}
{"id": "C54", "title": "UNTIL column of zone lines", "statement": "The UNTIL column (year, optional month, day, time with suffix, optional comment) is converted to the date and time it means, a missing column to the year 9999; the day may be a number, lastSun, lastSat, Sun>=1 or Sun>=8. Other forms that the tz format allows (lastFri, Mon>=1, a time without minutes, a suffix after seconds) raise exceptions (refuted).", "quantifier": "all years (1901..2100 for weekday forms), months, days, times, suffixes, comments", "why_tests_cant": "All years and forms.", "anchors": ["src/zonal/zone.py:getUntilDate"]}
{"id": "C55", "title": "Validation reports exactly the deviations from the limits", "statement": "validate(doFix=False) reports every deviation of a component, and of those nested in it, from the limits on its properties: those required once, those allowed at most once, those required with any text, those required at least once, STATUS of recurring components, values of CALSCALE, VERSION, PERCENT-COMPLETE, PRIORITY, REPEAT, SEQUENCE and the UTC date-times, UNTIL against DTSTART, pairs that exclude or need each other, VEVENT without DTSTART, VTIMEZONE without observances. It reports nothing else, and every calendar read from text can be validated this way without an exception. Not covered by the limits: RFC 5545 allows one DTSTART in a VEVENT, two are accepted (refuted).", "quantifier": "all component trees, all texts that are read as a calendar", "why_tests_cant": "All property multisets of fourteen component types, nested.", "anchors": ["src/pycalendar/componentbase.py:validate", "src/pycalendar/icalendar/vevent.py:validate", "src/pycalendar/icalendar/vtodo.py:validate", "src/pycalendar/icalendar/valarm.py:validate", "src/pycalendar/icalendar/validation.py"]}
{"id": "C56", "title": "Copies of components", "statement": "duplicate() of a component whose properties all have values gives a component of the same class with the same properties and with copies of its sub-components in the same order, all the way down, and with the same UID, start, recurrence id and time zone id; every calendar that was read from text can be copied so. The copy is written as the same text, if no order among sub-components comes from uuids or from the action and trigger of alarms. Refuted by witnesses: the alarms of an event that was read may be written in another order by the copy; a property without a value can be written but its component cannot be copied; recurring() is False for a recurring component that is its own master but True for its copy, whose getMaster() is the original.", "quantifier": "all component trees, all texts that are read as a calendar, all uuids", "why_tests_cant": "Trees of any depth and width, and random uuids.", "anchors": ["src/pycalendar/componentbase.py:ComponentBase.duplicate", "src/pycalendar/icalendar/component.py:Component.duplicate", "src/pycalendar/icalendar/componentrecur.py:ComponentRecur.duplicate", "src/pycalendar/icalendar/calendar.py:Calendar.duplicate", "src/pycalendar/icalendar/property.py:Property.duplicate"]}
{"id": "C57", "title": "Component equality", "statement": "A copy is == the original whenever the properties of each component can be compared and are equal to themselves. On properties for which == is an equivalence that hash() respects (texts, numbers, addresses, durations, statuses and UTC times are such), two components are == exactly if they have the same type, each property of the one has an equal in the other, and the sub-components can be paired so that each pair is == ; this == is reflexive, symmetric and transitive. Refuted by witnesses: the number of equal properties does not count; components whose properties are equal one by one differ if the hashes of two equal times differ. (C80 gives the same with the hash of the code.)", "quantifier": "all component trees, any order of properties and sub-components", "why_tests_cant": "Trees of any depth and width; pairing of sub-components is a greedy loop.", "anchors": ["src/pycalendar/componentbase.py:ComponentBase.__eq__", "src/pycalendar/componentbase.py:ComponentBase.compareProperties", "src/pycalendar/componentbase.py:ComponentBase.compareComponents", "src/pycalendar/property.py:PropertyBase.__eq__"]}
{"id": "C58", "title": "Time zones of a calendar", "statement": "includeMissingTimezones adds, behind the components of the calendar, a copy of the database's zone for each TZID that a property with one date-time value of a component (or of an AVAILABLE in a VAVAILABILITY) has, if the calendar has no VTIMEZONE for it, once, and in the default mode only if it is not a standard one; it adds and changes nothing else, so afterwards every such TZID has a zone unless the database does not know it, and a second call does nothing. stripStandardTimezones takes out exactly the zones that the database has as standard ones and keeps the rest in order; including all zones brings back those that are used. Refuted by witnesses: a TZID that occurs only in a list (EXDATE, RDATE), or only in a component of a VPOLL, is left out; a calendar with a component called vtimezone in lower case can be read, but both functions raise AttributeError.", "quantifier": "all calendars, all zone databases, any order in which the set of TZIDs is visited", "why_tests_cant": "Unbounded calendars, databases and set orders.", "anchors": ["src/pycalendar/icalendar/calendar.py:Calendar.includeMissingTimezones", "src/pycalendar/icalendar/calendar.py:Calendar.stripStandardTimezones", "src/pycalendar/icalendar/calendar.py:Calendar.getTimezone", "src/pycalendar/icalendar/component.py:Component.getTimezones", "src/pycalendar/icalendar/vavailability.py:VAvailability.getTimezones"]}
{"id": "C59", "title": "Derived components replace one instance and change no other", "statement": "deriveComponent(rid) of a calendar with a master gives a component of the same type and UID, with copies of its sub-components, the same properties except DTSTART, DTEND and RECURRENCE-ID, and no RRULE, RDATE, EXRULE, EXDATE. It has one DTSTART and one RECURRENCE-ID, both the recurrence id adjusted to the master, and ends as long after that as DTEND is after DTSTART in the master (as DURATION says, if the master has DURATION; then it has no DTEND); it does not recur. Without a master the result is None. The start is rid itself if rid is in the zone of the master, or if the master is in UTC or floating; from a rid in UTC it is the same instant in the zone of the master, outside hours repeated on the clock. If rid is an instance of a master with DTEND in the window that is not replaced yet, then after adding the derived component the master and it together give as many instances as the master before, with the same starts and ends. Refuted by witnesses: a to-do keeps its old DUE and gets DTEND; an event without DTEND gets one equal to DTSTART; a master in UTC or floating leaves the start in the zone of rid; for a master with DURATION the derived component is longer than the instance it replaces.", "quantifier": "all calendars, masters, recurrence ids; for the last part all recurrence sets of C36 and windows, after any history of calls", "why_tests_cant": "Every master and every instance of an unbounded recurrence set.", "anchors": ["src/pycalendar/icalendar/calendar.py:Calendar.deriveComponent", "src/pycalendar/icalendar/calendar.py:Calendar.masterComponent", "src/pycalendar/icalendar/componentrecur.py:ComponentRecur.duplicate", "src/pycalendar/icalendar/componentrecur.py:ComponentRecur.finalise", "src/pycalendar/icalendar/componentrecur.py:ComponentRecur.expandPeriod", "src/pycalendar/icalendar/property.py:Property._init_attr_value_datetime"]}
{"id": "C60", "title": "Instances of events in a window", "statement": "expandPeriod of a recurring master in a calendar gives exactly the starts of its recurrence set in the window (RRULE, RDATE and DTSTART without EXRULE and EXDATE) that are not the RECURRENCE-ID of an overriding component of the calendar, each once, each ending as many seconds after its start as DTEND is after DTSTART; in UTC, a numeric zone or no zone this is the length of the master. Any other event gives itself exactly if it ends after the window starts and starts before the window ends. getVEvents gives what the events of the calendar give, in the order of the events, with the overriding components that are in the calendar; a call changes nothing a later call could see. Refuted by witnesses: instances of a master with DURATION, or on a date without DTEND, have no length; a recurring event that was added to a calendar by addComponent gives nothing; RANGE=THISANDFUTURE replaces one instance only, two of them raise AttributeError, and so does RDATE;VALUE=PERIOD; an event without length at the start of the window is left out; an instance that has begun before the window is left out; the result is not sorted; an instance that crosses a change of the clocks has another length on the clock; a component called vevent makes getVEvents raise.", "quantifier": "all recurrence sets for which C36 is proved, after any history of calls; all windows; any number of events and overriding components; any set order", "why_tests_cant": "Unbounded sets, windows and calendars; caches kept across calls.", "anchors": ["src/pycalendar/icalendar/componentrecur.py:ComponentRecur.expandPeriod", "src/pycalendar/icalendar/componentrecur.py:ComponentRecur.withinPeriod", "src/pycalendar/icalendar/componentrecur.py:ComponentRecur.finalise", "src/pycalendar/icalendar/componentexpanded.py:ComponentExpanded.initFromOwner", "src/pycalendar/icalendar/calendar.py:Calendar.getVEvents", "src/pycalendar/icalendar/vtodo.py:VToDo.finalise"]}
{"id": "C61", "title": "Edited times are written as they are cached and read back the same", "statement": "editTimingStartEnd(start, end) with start before end leaves one DTSTART (start) and one DTEND (end; none if start and end are a date and the next), neither DURATION nor DUE, and every other property as it was; the cached start and end are those given, and finalise of the new properties finds the same start and end. editTimingStartDuration(start, duration): one DTSTART, the DURATION (none if start is a date and the duration has no weeks and at most one day), no DTEND, no DUE, others as before; the cached end is that long after the start, and finalise finds the same, unless a duration other than one day was dropped. editTimingDue(due): one DUE and no other time property; a to-do has that end after finalise. Refuted by witnesses: editTiming() always raises and leaves the properties; an end not after the start is corrected in memory but written uncorrected; from one date to the next the end is known in memory and not after reading again; a duration of 48 hours from a date is lost; a to-do gets DTEND instead of DUE; editRecurrenceSet raises after it has removed RDATE and EXDATE; excludeRecurrence raises for a recurring component.", "quantifier": "all components with any properties, all dates and durations, all zones", "why_tests_cant": "Every combination of properties, dates and durations; the cached values are observable only through further calls.", "anchors": ["src/pycalendar/icalendar/componentrecur.py:ComponentRecur.editTimingStartEnd", "src/pycalendar/icalendar/componentrecur.py:ComponentRecur.editTimingStartDuration", "src/pycalendar/icalendar/componentrecur.py:ComponentRecur.editTimingDue", "src/pycalendar/icalendar/componentrecur.py:ComponentRecur.fixStartEnd", "src/pycalendar/icalendar/componentrecur.py:ComponentRecur.editRecurrenceSet"]}
{"id": "C62", "title": "Moving a time to another time zone keeps the instant", "statement": "adjustToUTC of a time in a zone gives the time in UTC and keeps getPosixTime(). adjustTimezone to another zone gives the time in UTC moved by what that zone is ahead at this UTC time, with valid fields, and nothing changes if the zone is the same. It keeps getPosixTime(), and adjusting back gives the same fields again, whenever the zone has one offset for the local and the UTC question; for a zone in which every change starts from the offset that the one before leads to, this is so from the first change on except in the time that the clock repeats after it was set back. Refuted by witnesses: in that repeated hour the result is an hour early; a date moved to a zone behind UTC becomes the day before; a floating time is taken for UTC.", "quantifier": "all times, all zones and databases, any caches that are right", "why_tests_cant": "Every instant, and every history of zone changes.", "anchors": ["src/pycalendar/datetime.py:DateTime.adjustTimezone", "src/pycalendar/datetime.py:DateTime.adjustToUTC", "src/pycalendar/datetime.py:DateTime.timeZoneSecondsOffset", "src/pycalendar/icalendar/vtimezone.py:VTimezone.getTimezoneOffsetSeconds"]}
{"id": "C63", "title": "Calendars written as JSON are read back with the same content", "statement": "writeJSON of a property, taken through any reordering of the members of its objects, is read by parseJSON as a property with the same parameters (names in upper case, VALUE aside) and the same value of the same type; the same for a calendar of nested components: each component has the properties of every name in their order and the same sub-components. The conditions: parameters come once each with one ASCII name and one value, list values only where the property has lists and not of BOOLEAN or TIME, no value of unknown type in a property with a known type. What goes wrong on reading is reported with InvalidData, InvalidComponent, InvalidProperty or ValidationError. Refuted by witnesses that are themselves read from text: a parameter with two values is written but not read; of two parameters of the same name one is lost; a TIME value cannot be read, a list of them cannot be written; an unknown value type is lost. Reading JSON accepts any name for the calendar and no VERSION, takes a REQUEST-STATUS string apart into characters, and drops further values.", "quantifier": "all properties, all trees of components of any depth, all orders of object members, all JSON trees (errors)", "why_tests_cant": "Infinite set of trees, types and orders of dictionary members.", "anchors": ["src/pycalendar/property.py:PropertyBase.parseJSON", "src/pycalendar/property.py:PropertyBase.generateValueJSON", "src/pycalendar/componentbase.py:ComponentBase.parseJSON", "src/pycalendar/componentbase.py:ComponentBase.writeJSON", "src/pycalendar/containerbase.py:ContainerBase.parseJSONData", "src/pycalendar/parameter.py:Parameter.writeJSON"]}
{"id": "C64", "title": "Filtered output is the output of the component without what the filter holds back", "statement": "After any sequence of calls on an OutputFilter, a property passes if all were asked for or its name was added, and the last call for a name decides whether its value is written; a sub-component passes if all were asked for or its type was added. With a filter that has no filters for sub-components, generateFiltered writes the text that generate writes for the component without the properties and, unless asked for, the sub-components held back; read again, a calendar whose VERSION passes gives that calendar. A property let through without its value is written as its line up to the colon. writeJSONFiltered writes the JSON of the component so cut down if it has no sub-components or none are asked for. Refuted: a filter with a filter for sub-components makes generateFiltered raise AttributeError; writeJSONFiltered asked for all sub-components writes the component itself, unfiltered, as its sub-component; a property written without its value as JSON, or in text when not of a text type, cannot be read; a name added in lower case lets nothing through.", "quantifier": "all sequences of calls on a filter, all components of any depth, all properties", "why_tests_cant": "Filters are built by arbitrary sequences of calls and applied to arbitrary trees; the existing tests never use one.", "anchors": ["src/pycalendar/outputfilter.py:OutputFilter", "src/pycalendar/componentbase.py:ComponentBase.generateFiltered", "src/pycalendar/componentbase.py:ComponentBase.writeComponentsFiltered", "src/pycalendar/componentbase.py:ComponentBase.writePropertiesFiltered", "src/pycalendar/componentbase.py:ComponentBase.writeJSONFiltered", "src/pycalendar/property.py:PropertyBase.generateFiltered"]}
{"id": "C65", "title": "A property made from a Python value is written so that the value is read back", "statement": "Property(name, value, valuetype) with a value that suits the property: its line is read as a property with that name and that value, also if the value is not of the default type of the property (a VALUE parameter is added) and if a date has a zone (a TZID parameter is added). That is for a text given to a property of type TEXT, URI or CAL-ADDRESS or of unknown name, an integer, a date or date-time, a duration, a period, a rule, a UTC offset, a list of dates in one zone, a list of periods, a list of the two or three texts of REQUEST-STATUS. A text given to a property of type TEXT is written in one line whatever it contains. Refuted: a text given to a property with an unknown name can contain further lines, which are read as other properties; a text given to a property of another type, as DTSTART, is lost without an error and the property is written with the first value of the type (1970, 0, yearly); a text with a comma given to CATEGORIES is read as two; the dates of a list in several zones are all read in the zone of the first; periods lose their zone.", "quantifier": "all names, all values of the kinds that the constructor tells apart, all texts", "why_tests_cant": "Values of every type with every name; texts are arbitrary.", "anchors": ["src/pycalendar/icalendar/property.py:Property.__init__", "src/pycalendar/icalendar/property.py:Property._init_attr_value_datetimelist", "src/pycalendar/icalendar/property.py:Property._init_attr_value_periodlist", "src/pycalendar/property.py:PropertyBase._init_attr_value_text", "src/pycalendar/property.py:PropertyBase.setupValueParameter"]}
{"id": "C66", "title": "An edited alarm has what it was given, and is read as the same alarm", "statement": "VAlarm: if an alarm is what a new alarm with its properties would be (action with its data, trigger, repetitions, status, last trigger), then that is so after any number of calls of editStatus, editAction, editTriggerOn, editTriggerBy and editRepeats. Each call leaves all that it is not about, in memory and in the properties; the properties afterwards say what was given: one ACTION with the texts of the action and for e-mail one ATTENDEE for each address, one TRIGGER with VALUE=DATE-TIME or DATE if it is a time and RELATED=START or END if it is a duration, REPEAT and DURATION together or neither. An alarm with the same properties, as after writing and reading, is the same alarm. The key for the order of alarms is made from the action and the trigger. Refuted: getNextTrigger always raises AttributeError; alarmTriggered raises AttributeError, having removed the status and the last trigger; setting an unknown action again writes PROCEDURE; ACTION:display is an unknown action and RELATED=end has no effect; setting a sound action without text again adds an empty text; an e-mail action without attendees raises TypeError, with half of it done; a negative number of repetitions and the interval without repetitions are not read back.", "quantifier": "all alarms whose properties are filed by name, all lists of calls with data that fits the action, status 0 to 2 and repetitions not negative", "why_tests_cant": "Histories of calls of any length with any values; the state in memory and the properties are two copies that must agree after each.", "anchors": ["src/pycalendar/icalendar/valarm.py:VAlarm.finalise", "src/pycalendar/icalendar/valarm.py:VAlarm.editStatus", "src/pycalendar/icalendar/valarm.py:VAlarm.editAction", "src/pycalendar/icalendar/valarm.py:VAlarm.editTriggerOn", "src/pycalendar/icalendar/valarm.py:VAlarm.editTriggerBy", "src/pycalendar/icalendar/valarm.py:VAlarm.editRepeats", "src/pycalendar/icalendar/valarm.py:VAlarm.getNextTrigger", "src/pycalendar/icalendar/valarm.py:VAlarm.alarmTriggered"]}
{"id": "C67", "title": "Busy times of a VFREEBUSY component", "statement": "A VFREEBUSY component that was read and is asked with expandPeriodComp for a window is put in the list if and only if the window has a moment in common with the time from DTSTART (or the start of the earliest busy time) to DTEND (or the end of the latest). Busy times are those of the FREEBUSY properties without FBTYPE or with BUSY, BUSY-UNAVAILABLE or BUSY-TENTATIVE in any case. So no busy time is overlooked. getBusyTime gives them with their types in order of their starts, those with equal starts in the order they were; further windows and copies of the component are answered in the same way; without busy times it is never in the list. editTimingStartEnd and editTimingStartDuration leave exactly the properties given and keep the others. Refuted: expandPeriodFB adds objects without period whose type is not a number; DURATION does not count for the time of the component; once asked, it does not notice edits; a property made from one period is not busy until it is read again; an end one date after a start that is a date is not written, nor is a duration of at most a day; editTiming raises; Calendar.getFreeBusy always raises and getVFreeBusyList whenever there is a VFREEBUSY.", "quantifier": "all components with any number of FREEBUSY properties and periods on one time scale, all windows on it", "why_tests_cant": "Any number of busy periods in any order with any types; the answer depends on a cache that lives in the component.", "anchors": ["src/pycalendar/icalendar/vfreebusy.py:VFreeBusy.finalise", "src/pycalendar/icalendar/vfreebusy.py:VFreeBusy.cacheBusyTime", "src/pycalendar/icalendar/vfreebusy.py:VFreeBusy.expandPeriodComp", "src/pycalendar/icalendar/vfreebusy.py:VFreeBusy.expandPeriodFB", "src/pycalendar/icalendar/vfreebusy.py:VFreeBusy.editTimingStartEnd", "src/pycalendar/icalendar/vfreebusy.py:VFreeBusy.editTimingStartDuration", "src/pycalendar/icalendar/freebusy.py:FreeBusy", "src/pycalendar/icalendar/calendar.py:Calendar.getFreeBusy"]}
{"id": "C68", "title": "Offset changes of tz zones", "statement": "Zone.expand(rules, minYear, maxYear) of a zone of two or more lines returns, in order, one tuple for each change of the zone from minYear on: the start of every line but the first, and the changes by the rules of these lines while they are in force. Each tuple has the local time before the change, the offsets before and after it, the line and the rule. Times of rules and UNTIL are read on the clock that their suffix tells, wall time with the offset just before them. So looking up the last tuple not after a moment gives the offset that the tz source defines for it. A zone of one line gives the changes by its rules, after a tuple that changes nothing if 1800 is among the years. Refuted: a line whose rules only start after maxYear keeps the offset of the line before; a constant saving of the first line is lost; changes by rules of the first of several lines are not returned; two changes are merged if the clock has not passed the reading of the first at the second; maxYear is the year after the last for rules that go beyond it, but the last for rules that end with it.", "quantifier": "all zones and rule sets in the forms of C45, C46 and C54 whose changes are in distinct order and not in doubt at the end or start of a line, all years", "why_tests_cant": "Any number of lines, rules and years; where one line ends and another starts depends on the offset in force there, which depends on all rules before.", "anchors": ["src/zonal/zone.py:Zone.expand", "src/zonal/zone.py:ZoneRule.expand", "src/zonal/zone.py:ZoneRule.expand_norule", "src/zonal/rule.py:RuleSet.expand", "src/zonal/rule.py:Rule.expand", "src/zonal/rule.py:Rule.fullExpand"]}
{"id": "C69", "title": "VTIMEZONE of tz zones", "statement": "The VTIMEZONE that Zone.vtimezone writes for a zone announces, up to maxYear, exactly the changes that Zone.expand lists after the lines of local mean time: STANDARD and DAYLIGHT components with their local times, the offsets before and after and the names, by RRULE with UNTIL for runs of a rule in successive years and by RDATE for single ones. When the text is read again, VTimezone.getTimezoneOffsetSeconds gives for a moment in UTC the offset that the tz source defines. Refuted: a run of a rule without end that is cut short by maxYear or by another run goes on for ever; the start of a line at an offset that a rule gives is put in the component of that rule, which then has a wrong RRULE; for days that the local clock moves out of the month of the rule (last Sunday at 22:00u, the first at 0:00u) changes are missed or an exception is raised; a format A/B is the whole name at the start of a line; the object returned, before it is written and read, does not know the merged RDATEs.", "quantifier": "all zones and rule sets in the forms of C45, C46, C54 and C68 whose changes are in order, whose rules stay in their month on the local clock and whose runs follow each other year by year; all years from 1902 to 2098; all histories of questions to the VTIMEZONE", "why_tests_cant": "Any number of lines, rules and years; the grouping into runs and RDATEs depends on the whole list, and the result is read through the unbounded expansion of RRULEs.", "anchors": ["src/zonal/zone.py:Zone.vtimezone", "src/zonal/zone.py:Zone._compressRDateComponents", "src/zonal/zone.py:ZoneRule.vtimezone", "src/zonal/rule.py:Rule.vtimezone"]}
{"id": "C70", "title": "vCards", "statement": "A vCard property written with generate is read back by Property.parseText as the same property: group, name, parameters other than VALUE, and value; and it is written again as the same line. The type of the value is the one that the VALUE parameter names or else the default of the property; NICKNAME and CATEGORIES are lists; N, ADR, ORG and GEO are structured. A card written with Card.generate is read back by Card.parseText as the same properties of each name in the same order, with the lines in the order VERSION, PRODID, UID, then by name; several cards in one text are read by Card.parseMultipleTextData as these cards. parseMultipleTextData accepts exactly sequences of cards of property lines with a VERSION each that is 3.0; parseText puts the properties of all the cards in a text into one. A text that is refused is refused with InvalidData or InvalidProperty. A name that was read has five parts and an address seven; getFullName gives the words of prefix, given name, middle name, surname and suffix in this order; duplicate of a property that was read equals it. Refuted: a UTC offset (TZ) is written in a form that is not read; the text of a new Card() has no VERSION and is refused; equality ignores the group; a name with a sixth part that was let pass cannot be duplicated; a list of texts as value fails except for ORG, and N from a text is written with its semicolons escaped; BEGIN:VCARD inside a card is taken for a property; reading does not end for some texts.", "quantifier": "all properties whose name, group, parameters and value can stand in a line (the exact conditions are in VCardSpec.v), all cards of them, all sequences of cards; all texts for the statements about acceptance and errors; all parser policies", "why_tests_cant": "Cards have any number of properties with texts of any length and any characters to be escaped; acceptance is about all texts.", "anchors": ["src/pycalendar/vcard/card.py:Card.parseMultipleTextData", "src/pycalendar/vcard/card.py:Card.validProperty", "src/pycalendar/vcard/property.py:Property", "src/pycalendar/containerbase.py:ContainerBase.parseText", "src/pycalendar/vcard/n.py:N", "src/pycalendar/vcard/adr.py:Adr", "src/pycalendar/vcard/orgvalue.py:OrgValue"]}
{"id": "C71", "title": "Summary, status and completion of components", "statement": "editSummary, editDetails, editStatus and editCompleted set what they are given: afterwards there is exactly one property with the text (none if there is no text), the cached field has the value, and all other properties are kept. The status of an event can be any or none, that of a to-do NEEDS-ACTION, IN-PROCESS or CANCELLED; a to-do with a new status has no COMPLETED. After any sequence of such calls, getSummary, getStatus, getPriority, hasCompleted and getCompleted of the component are those of a new component with the same properties; and if the calendar that it is in is written and read, the component that is read has the same summary, status, priority, percentage and completion. A completion given in a zone is stored as the same time in UTC, without TZID. A component that is read has the status that its first STATUS names. getCompletionState of a to-do without a due date follows from its status. Refuted: editStatus(Completed) of a to-do raises, and the to-do is written without a status; editStatus(None) of a to-do writes an empty STATUS; a status in lower case is not recognised; finalise keeps a status and a summary that are no longer there; after validate(doFix) has made an event cancelled, getStatus still says what it was; setting the status that is cached leaves a second STATUS; a completion without a zone or time is not put in UTC; an empty summary differs after reading; getCompletionState with a due date, getStatusText and sort_for_display raise.", "quantifier": "all components of the recurring classes with any properties, all sequences of calls; all texts in UTF-8 and all dates that can be written, all calendars around the component, all parser policies for what is written and read; all time zones", "why_tests_cant": "Any number of edits in any order, any texts, any other content of the component and the calendar.", "anchors": ["src/pycalendar/icalendar/vevent.py:VEvent.editStatus", "src/pycalendar/icalendar/vtodo.py:VToDo.editStatus", "src/pycalendar/icalendar/vtodo.py:VToDo.editCompleted", "src/pycalendar/icalendar/vtodo.py:VToDo.finalise", "src/pycalendar/icalendar/vtodo.py:VToDo.getCompletionState", "src/pycalendar/icalendar/componentrecur.py:ComponentRecur.editSummary", "src/pycalendar/icalendar/componentrecur.py:ComponentRecur.editDetails", "src/pycalendar/componentbase.py:ComponentBase.editProperty"]}
{"id": "C72", "title": "The XML (xCal) form says the same as the JSON", "statement": "The XML text of a calendar, with components nested to any depth, is well formed and can be read by an XML reader: with the elements put in the places that RFC 6321 and RFC 7265 give them, it says exactly the JSON (jCal) that the calendar is written as - the same properties in the same order, with the same parameters, types and values, and the same components. So the calendar that is read from it is the same. The same holds for a component without sub-components written through a filter. Whatever characters of XML 1.0 a text contains (markup, quotes, the end of a CDATA section), it is read back; the white space for indentation never adds to a text. Calendars with durations, periods, request statuses, positions or texts outside ASCII cannot be written as XML (TypeError, AttributeError, UnicodeDecodeError); control characters and property names that begin with a digit give text that is not well formed; seconds of an offset are written wrongly, a carriage return is read as a line feed, and filtered output of a component with sub-components is wrong or raises.", "quantifier": "all components and calendars whose names are XML names and whose texts consist of characters of XML without CR, all values of the types that can be written, all filters for a component without sub-components, all parser policies; all element trees for what is well formed", "why_tests_cant": "Trees of any depth and texts of any length with any markup characters in them; rules with any parts.", "anchors": ["src/pycalendar/xmlutils.py:toString", "src/pycalendar/componentbase.py:ComponentBase.writeXML", "src/pycalendar/componentbase.py:ComponentBase.writeXMLFiltered", "src/pycalendar/property.py:PropertyBase.generateValueXML", "src/pycalendar/parameter.py:Parameter.writeXML", "src/pycalendar/value.py:Value.writeXML", "src/pycalendar/icalendar/recurrence.py:Recurrence.writeXML", "src/pycalendar/icalendar/calendar.py:Calendar.getTextXML"]}
{"id": "C73", "title": "tz source files are read as they say", "statement": "After tzconvert.parse() of a tz source file, the rules, zones and links are those of before together with what the lines of the file say: every Rule line is added after the rules of its name, every Zone line with the lines that continue it (remarks, empty lines and indented remarks among them) becomes the zone of its name, every Link line the link of its new name; later zones and links replace earlier ones. Columns may be separated by any number of spaces and tabs. A file of the texts that generate() makes is read back, in any order. Two files read one after the other are like one file. A line of any other kind is an AssertionError wherever it is. expandZone() of a zone in a file gives the changes of the zone by the rules in the file, the order of lines matters only among rules or zones of one name, and an unknown zone is a KeyError. False: the last line loses its last character if no line feed ends it; a line of blanks or a short indented remark inside a zone raises; a remark at the end of a zone line becomes its UNTIL, an indented remark written tight becomes a line of the zone; with CR LF line ends the CR goes into the last column.", "quantifier": "all files (any number of lines of any length) that the manual page of zic describes, all earlier states, all names, all lists of rules, zones and links", "why_tests_cant": "Files of any length with zones, rules, links and remarks in any order and any layout of blanks.", "anchors": ["src/zonal/tzconvert.py:tzconvert.parse", "src/zonal/tzconvert.py:tzconvert.parseRule", "src/zonal/tzconvert.py:tzconvert.parseZone", "src/zonal/tzconvert.py:tzconvert.parseLink", "src/zonal/tzconvert.py:tzconvert.expandZone", "src/zonal/zone.py:Zone.parse", "src/zonal/rule.py:Rule.parse"]}
{"id": "C74", "title": "The iCalendar data that the tz compiler writes is read as the zones it was made of", "statement": "The text of tzconvert.vtimezones() is read as a VCALENDAR with PRODID, VERSION and CALSCALE, and with one VTIMEZONE for every zone that was asked for (all, or those in filterzones), sorted by their names; each has its name as TZID and X-LIC-LOCATION, and the sub-components that Zone.vtimezone makes, with their kinds, offsets, names, starts, rules and dates, in their order; getTimezone finds every one by its name and no other. The text does not depend on the order of the dictionary of zones, on links or on zones that were not asked for. If Zone.vtimezone raises for one of the zones, so does vtimezones. The sub-components can always be written when the changes have years from 1902 to 9998, offsets below a day and names in UTF-8. From the source to the lookup: under the conditions of C69 the time zone in the calendar that is read tells, for moments in UTC after the first change, the offset that the lines of the zone define. False: for a zone with one line the VTIMEZONE is empty and its offset is 0; between minYear and the first change after it the offset 0 is told instead of that in force.", "quantifier": "all sets of zones and rules, all ranges of years, all filters, all PRODIDs in UTF-8, all states of the parser; all histories of questions, all moments in UTC for the lookup", "why_tests_cant": "Any number of zones with any number of sub-components; all moments of all zones, through text.", "anchors": ["src/zonal/tzconvert.py:tzconvert.vtimezones", "src/zonal/zone.py:Zone.vtimezone", "src/pycalendar/icalendar/calendar.py:Calendar.getTimezone", "src/pycalendar/icalendar/calendar.py:Calendar.addDefaultProperties", "src/pycalendar/icalendar/vtimezone.py:VTimezone.finalise", "src/pycalendar/icalendar/vtimezoneelement.py:VTimezoneElement.finalise", "src/pycalendar/icalendar/calendar.py:Calendar.parseComponent"]}
{"id": "C75", "title": "The zone info directory has one readable file per zone and per link", "statement": "tzconvert.generateZoneinfoFiles() writes one file for every zone asked for, with exactly the text that vtimezones() has for it alone, and, with links, one for every link or Windows alias (first entry for territory 001 of a name that has no link) whose source is such a zone, with the text of the zone in which the old name is replaced; no other file; links.txt has these links, one a line, name TAB source, sorted by name. Without links there is no links.txt and there are no link files. The file of a zone is read as a calendar with that zone only. The file of a link is read as a calendar with the same sub-components under the new name, if the old name occurs only twice in the text. False: a link to a link has a file only if its name sorts after the other; an old name such as EST is also replaced in TZNAME, and one such as TIME in the names of components, so the file has no VTIMEZONE; a link with the name of a zone replaces the file of the zone.", "quantifier": "all sets of zones, rules, links and aliases, all ranges of years, all filters, all PRODIDs in UTF-8, all states of the parser", "why_tests_cant": "Any number of zones, links and aliases; names are replaced in texts of any length.", "anchors": ["src/zonal/tzconvert.py:tzconvert.generateZoneinfoFiles", "src/zonal/tzconvert.py:tzconvert.parseWindowsAliases", "src/zonal/tzconvert.py:tzconvert.vtimezones"]}
{"id": "C76", "title": "What vCards say in JSON, and what it loses", "statement": "A property of a vCard with a text, URI, number, date, date-time, time offset or GEO value, or a list of these, that fits it, and with at most one value for each parameter is written as JSON that is read back, whatever the order of object members, as the property with that name, parameters and value but without its group; a card of such properties is read back with the same properties of each name in order, and an array of cards as these cards (Card.parseMultipleJSONData). N, ADR and ORG are written with null for their type, and an array of all their parts in order, and so are never read back: JSON of a card with one of them is always refused. In JSON from elsewhere N, ADR and ORG with the type text and an array of texts are read as these parts, and nothing but texts is read so. A card is only read from an array with properties that can all be read and without components. JSON that is refused is reported with an error of the library if the top is an array. False: cards with names survive JSON; groups survive; ORG with one part is written as one text (it is written as its letters); parts with several texts are read (RFC 7095 3.3.1.3); short names are filled up; UTC offsets in properties other than TZ survive; VERSION and the component name are checked.", "quantifier": "all cards and properties, all JSON objects in any member order, all states of the parser", "why_tests_cant": "Any number of properties, parameters, values and cards, any order of members.", "anchors": ["src/pycalendar/property.py:PropertyBase.parseJSON", "src/pycalendar/property.py:PropertyBase.writeJSON", "src/pycalendar/vcard/card.py:Card.parseMultipleJSONData", "src/pycalendar/vcard/adr.py:Adr.writeJSON", "src/pycalendar/vcard/n.py:N.writeJSON", "src/pycalendar/vcard/orgvalue.py:OrgValue.writeJSONValue"]}
{"id": "C77", "title": "validate() of a vCard reports its problems and no others", "statement": "Card.validate() returns no repaired problems, whatever doFix says, and reports exactly: VERSION or N not there exactly once; BDAY, PRODID, REV or UID there more than once; no FN; a VERSION whose text is not 3.0; a PROFILE whose text is not VCARD in any letter case. Names count in any letter case. With doRaise it raises ValidationError exactly if there is something to report. For a card that was read, one or one of several, there is no other exception. Its duplicate has the same properties in the same order, and not the defaults of a new card (with parts of N and ADR that are too many cut off). False: a new Card() has no problem with VERSION, and it can be duplicated; a card read with version 4.0 (the name not in upper case) has VERSION 3.0; a card with a VERSION that has no text can be validated.", "quantifier": "all cards, all texts that can be read as cards, all orders of the dictionary of properties, all states of the parser", "why_tests_cant": "Any number of properties, names in any letter case, any order of the dictionary.", "anchors": ["src/pycalendar/componentbase.py:ComponentBase.validate", "src/pycalendar/containerbase.py:ContainerBase.validate", "src/pycalendar/vcard/validation.py:VCARD_VALUE_CHECKS", "src/pycalendar/vcard/card.py:Card", "src/pycalendar/componentbase.py:ComponentBase.duplicate"]}
{"id": "C78", "title": "What dates, times and time zones look like for display", "statement": "DateTime.getLocaleDate shows a date from 1901 to 2100 in each of its six formats with its true weekday, the English name of its month (or their first three letters, or numbers), its day and its year; for any other format number the text is empty. Dates of any year with months 1-12 that have the same text in the same format have the same month, day and (with a year in the format) year. getTime shows a valid time with two digits each on a clock of 24 hours, and on a clock of 12 hours as 12, 1 ... 11 with AM before noon and PM from noon on; times with the same text are the same (up to seconds if these are left out), and texts with 24 hours sort as the times do. getLocaleDateTime is both with a space between and still tells both. The time zone stands after it: (UTC), the sign, hours and minutes of a UTC offset, which tell offsets of whole minutes apart, or what the VTIMEZONE of the time zone (for a floating time: of the default time zone) says. getMonthText and getDayOfWeekText give these names. The default time zone ID of the CalendarManager is the one that was set. False: with UTC as the default, floating times are shown as (UTC); offsets that differ have different texts; texts with 12 hours sort as the times do.", "quantifier": "all dates with months 1-12 (weekdays: from 1901 to 2100), all valid times, all formats and flags, all offsets under 100 hours, all answers of the time zone database", "why_tests_cant": "All dates, times and pairs of them; tests try a few.", "anchors": ["src/pycalendar/datetime.py:DateTime.getLocaleDate", "src/pycalendar/datetime.py:DateTime.getTime", "src/pycalendar/datetime.py:DateTime.getLocaleDateTime", "src/pycalendar/datetime.py:DateTime.getMonthText", "src/pycalendar/locale.py:getDay", "src/pycalendar/locale.py:getMonth", "src/pycalendar/timezone.py:Timezone.timeZoneDescriptor", "src/pycalendar/manager.py:CalendarManager.setDefaultTimezoneID"]}
{"id": "C79", "title": "What the tool that checks files says", "statement": "The tool validator.py, run on a file that has BEGIN:VCALENDAR in it and that Calendar.parseText reads with all policies set to raise, prints one line with all the problems of the calendar and of the components in it, or that there are no problems, and nothing else but a line for each control character (other than tab, line feed and carriage return), with its code and position, in order of position; it then ends normally. A file without BEGIN:VCALENDAR but with BEGIN:VCARD is checked in the same way as a vCard. If reading ends with an error of the library, or if there is neither word, one line says so and the tool exits with status 1. There is no other end, save for an exception that is no error of the library when a calendar is read: vCards never end the tool with an exception. False: there is always an end without an exception (a VEVENT in a VTODO ends it with ValueError); a vCard without problems is reported so (not if BEGIN:VCALENDAR is in a note); a file of several vCards without problems is reported so (they are read as one).", "quantifier": "all files, all orders in which properties are met", "why_tests_cant": "All files; tests try a few.", "anchors": ["src/pycalendar/validator.py:validate", "src/pycalendar/parser.py:ParserContext.allRaise", "src/pycalendar/containerbase.py:ContainerBase.validate"]}
{"id": "C80", "title": "Hashes, and == of vCards", "statement": "Two iCalendar properties that are == have the same hash, if their times are of the same sort (dates, floating times, or neither), were read and not asked for their posix time, and the lists of their rules are in the same order. So what C57 says of == of components holds with the hash of the code, on properties that have a hash and whose values are texts, numbers, addresses, durations, statuses, UTC times and dates. Two vCards are == exactly if each property of the one is == a property of the other that has the same group, and the other way round (unless different properties happen to have the same hash); a vCard is always == itself. False: that == vCard properties have the same hash (__eq__ compares the group with itself, so one in a group is == one without, but the vCards are not ==); that rules that are == have the same hash (not if their lists are in another order); that times that are == have the same hash (not a floating one and one in a time zone); that all properties that were read have a hash (one with month 13 raises IndexError).", "quantifier": "all properties and vCards, any order, any hash of texts, numbers and tuples", "why_tests_cant": "All pairs of objects and orders of parameters; and sets behave by accident of hash values.", "anchors": ["src/pycalendar/icalendar/property.py:Property.__hash__", "src/pycalendar/vcard/property.py:Property.__hash__", "src/pycalendar/vcard/property.py:Property.__eq__", "src/pycalendar/value.py:Value.__hash__", "src/pycalendar/parameter.py:Parameter.__hash__", "src/pycalendar/componentbase.py:ComponentBase.compareProperties"]}
{"id": "C81", "title": "What the tool that expands rules prints", "statement": "The tool instances.py, given the text of a start and of a rule without BY parts, prints the start, the rule as given, and exactly the instances of the rule from the start on, up to but not including the same day a hundred years later (1 March for a 29 February that is missing then), each once and in order; if the rule and start are such that C31 applies. With BY parts in the years of C49 it prints exactly the instances that RFC 5545 gives, in order. If the start or the rule cannot be read it ends with ValueError and prints nothing. It never prints only some of its three lines, and the start that is printed has its fields in range. False: the tool ends for every start and rule that are read (not for an hourly rule from a date on); with COUNT and BY parts it prints as many instances as COUNT says (the start is counted but left out).", "quantifier": "all texts of starts and rules, all time zone data", "why_tests_cant": "All rules over a hundred years; the loop need not end.", "anchors": ["src/pycalendar/instances.py:instances", "src/pycalendar/icalendar/recurrence.py:Recurrence.expand"]}
{"id": "C82", "title": "What an overriding component takes from its master", "statement": "setMaster with another component as master: afterwards the start is the own DTSTART, or else the RECURRENCE-ID. Without DTEND and DURATION the end comes as long after the start as the end of the master after its start (in seconds, across time zones). So an override that has only a RECURRENCE-ID has exactly the times that expansion of the master gives for that instance, if the master has DTEND. With DURATION and no DTSTART the end is the RECURRENCE-ID plus that DURATION. With own DTSTART and DTEND (or DURATION) all times stay as finalise left them. In every case only start and end differ from what finalise leaves. False: a to-do keeps its own DUE (it loses it to the length of the master); every component has a start afterwards (without RECURRENCE-ID and DTSTART it has None, or the call ends with TypeError); agreement with expansion if the master has DURATION (expansion gives instances without length); the call ends well for every component that is read (a DURATION with VALUE=TEXT gives AttributeError).", "quantifier": "all components, masters and time zone data; for the length, masters whose start and end are in the years 1901 to 2100", "why_tests_cant": "All combinations of present and missing properties, and all times of masters and instances.", "anchors": ["src/pycalendar/icalendar/componentrecur.py:ComponentRecur.setMaster", "src/pycalendar/icalendar/componentrecur.py:ComponentRecur.initFromMaster"]}
{"id": "C83", "title": "UID, sequence number and time stamps", "statement": "setUID, setSeq, initDTSTAMP and updateLastModified each leave exactly one property of their name (UID, SEQUENCE, DTSTAMP, LAST-MODIFIED), with the value given (or the time in UTC that the clock gives) and no parameters, and change no other property and nothing else in memory; getOriginalSeq still gives the number that was read. After any number of these calls getUID, getSeq and (for recurring components) hasStamp and getStamp are what a new component with the same properties has, and what is found after the calendar is written and read. If the clock says second n, getStamp is that second. The UIDs that setUID makes itself (given the empty text) in one process are all different, even at the same time of the clock, if no two of the texts they are made from have the same digest. False: finalise after UID or SEQUENCE is taken out gives what a new component has (the old values stay); a UID that is only blank or a sequence number below zero is refused.", "quantifier": "all components, all lists of calls; clocks in the years 0 to 9999 for writing, 1901 to 2100 for the second", "why_tests_cant": "All sequences of calls on all components, and UIDs made at the same moment.", "anchors": ["src/pycalendar/icalendar/component.py:Component.setUID", "src/pycalendar/icalendar/component.py:Component.setSeq", "src/pycalendar/icalendar/component.py:Component.initDTSTAMP", "src/pycalendar/icalendar/component.py:Component.updateLastModified", "src/pycalendar/icalendar/componentrecur.py:ComponentRecur.initDTSTAMP"]}
{"id": "C84", "title": "Setting the value of a property", "statement": "Property.setValue with a value of the type that the VALUE parameter or else the name of the property gives (a non-empty list for the names with list values) keeps name and parameters and puts the value given in place of the old one; date-times take the zone that the TZID parameter names, if there is one, and keep their fields. The value given is not changed if there is no TZID parameter or the type is not DATE-TIME. The line written is read as a property with that name, the same parameters apart from VALUE, and that value. For a name with list values and a value that cannot be iterated over, TypeError is raised and the property is left with an empty list. False: a date-time in UTC keeps its instant (with a TZID parameter it becomes the same hour there, in the caller's object too); the zone of a date-time is written although there is no TZID parameter; a text set for an unknown name is read back; setting a request status to its own text leaves it as it is; a list property given one text has that text (it gets one value per letter).", "quantifier": "all properties with a name and parameters that can be written, other than GEO and REQUEST-STATUS; all values of the type other than floats; texts in lists without commas", "why_tests_cant": "All types, parameters and values; that what is set survives writing and reading.", "anchors": ["src/pycalendar/property.py:PropertyBase.setValue", "src/pycalendar/multivalue.py:MultiValue.setValue", "src/pycalendar/icalendar/property.py:Property._postCreateValue", "src/pycalendar/valueutils.py:WrapperValue.setValue"]}
{"id": "C85", "title": "Editing the parameters of a property", "statement": "After any list of addParameter, replaceParameter, removeParameters, setParameters and of setName, setValues, addValue, removeValue on the first parameter under a name (calls that raise are passed over), the parameters under each name are exactly those the calls say, other names being untouched; hasParameter, getParameterValue and getParameterValues tell them, for the name in upper or lower case, with KeyError for a name that has none. If they can be written and TZID is as before, the line of the property is read as one with the same value and with those parameters (apart from VALUE). Calls about VALUE do not change the line at all. False: replacing TZID changes the zone of the value in memory (it is the value read that is in the new zone); a parameter given a new name is found by it (it is written by it).", "quantifier": "all lists of calls on all dicts of parameters; dicts given to setParameters with keys that differ in more than case and without empty lists", "why_tests_cant": "All sequences of calls; that the edited property survives writing and reading.", "anchors": ["src/pycalendar/property.py:PropertyBase.addParameter", "src/pycalendar/property.py:PropertyBase.replaceParameter", "src/pycalendar/property.py:PropertyBase.removeParameters", "src/pycalendar/property.py:PropertyBase.setParameters", "src/pycalendar/property.py:PropertyBase.getParameterValue", "src/pycalendar/parameter.py:Parameter.removeValue"]}
{"id": "C86", "title": "Removing and matching by equality", "statement": "removeProperty(p) takes out exactly one property: the first of that name that is the object p or equal to it. All other properties stay in their order, and the name is gone when it has no property left; if the name has properties but none is equal, ValueError is raised; if it has none, nothing happens. A property that is added and then removed leaves the properties as they were, if none was equal to it. RecurrenceSet.equalsRules of two lists of rules is true exactly if the second has, in some order, for each rule of the first one that says the same (lists of BY parts in any order, same UNTIL). False: the object given to removeProperty is the one taken out (an equal one before it goes instead, which may be written in another way).", "quantifier": "all components whose properties of that name can be compared; all lists of rules whose UNTIL is absent or in UTC", "why_tests_cant": "All lists and all places of equal elements, including repeated ones.", "anchors": ["src/pycalendar/componentbase.py:ComponentBase.removeProperty", "src/pycalendar/icalendar/recurrenceset.py:RecurrenceSet.equalsRules"]}
{"id": "C87", "title": "Registered property names", "statement": "After any sequence of calls of registerDefaultValue: a line is read with the type that its VALUE parameter names, else with the one the library has for the name, else with that of the first call on the iCalendar class for the name in upper case, else with unknown type. A property whose value type the line tells is written as a line that is read as the same property and written again as the same text; VALUE is written exactly for values of another type than the default (or, without a default, other than TEXT), and for all values if a call for the name had always_write_value. In that last case a program that made any other calls reads the same property. Properties of names without a call are read and written as if no call had been made, and another call for a name that has a default changes nothing unless it asks for VALUE. A line that cannot be read gives InvalidProperty. False: a name registered in lower case is found (it is not); without VALUE the text is read as the same property by a program that did not make the call; pairs of floats registered with always_write_value can be read back (VALUE=FLOAT is written); calls on the vCard class leave calendars alone (VALUE is then written in calendars too).", "quantifier": "all sequences of calls, names, types, properties and lines", "why_tests_cant": "All sequences of calls together with all lines; what a reader with other calls makes of the text.", "anchors": ["src/pycalendar/property.py:PropertyBase.registerDefaultValue", "src/pycalendar/property.py:PropertyBase.determineValueType", "src/pycalendar/property.py:PropertyBase.setupValueParameter", "src/pycalendar/property.py:PropertyBase.parseText", "src/pycalendar/property.py:PropertyBase.generate"]}
{"id": "C88", "title": "JSON form of registered properties", "statement": "After any sequence of calls of registerDefaultValue: a property in JSON form without a VALUE member is read with the type that the array names, else (a name that is no value type) with the one the library has for the property, else with that of the first call for the name, else with unknown type; GEO and REQUEST-STATUS get their structured types; the property gets a VALUE parameter with the type of the array exactly if that is not the default of the name. A property that JSON can hold is written as an array that is read, whatever the order of object members, as the same property by a program that made any calls, except that a value of unknown type needs a reader that has no other type for the name; so for values of known types the calls of the writer and of the reader do not matter, other than for text. Arrays of names without a call are read as if no call had been made. Reading raises InvalidProperty and nothing else. False: a value written as unknown is read as one of unknown type by every program; pairs of floats under a registered name can be read back (they are written as float).", "quantifier": "all sequences of calls, properties and JSON trees", "why_tests_cant": "All sequences of calls together with all JSON trees, and readers with other calls than the writer.", "anchors": ["src/pycalendar/property.py:PropertyBase.parseJSON", "src/pycalendar/property.py:PropertyBase.generateValueJSON", "src/pycalendar/property.py:PropertyBase.registerDefaultValue", "src/pycalendar/property.py:PropertyBase.determineValueType"]}
{"id": "C89", "title": "Making registered properties", "statement": "After any sequence of calls of registerDefaultValue, Property(name, value, valuetype) with a value that suits the name (a str whose type, that given or the default of the name, is TEXT for a name with a default, CAL-ADDRESS, BINARY, URI, or unknown for a name without another default; for other values as in C65) is written as a line that is read as a property of that name and value. A str gets the type given, else the default of the name (of the library, else of the first call), else unknown type. The calls have no influence on properties made from other values than str, but for the VALUE parameter; that names the type of the value if it is another than the default (or not TEXT, without a default) or if a call had always_write_value, and is not there for values of the default type otherwise. Properties of names without a call are made as if no call had been made. False: registering a name keeps the texts that properties of the name are made from (with type INTEGER, Property('X-COUNT', '12') is written X-COUNT:0).", "quantifier": "all sequences of calls, names, Python values and value types", "why_tests_cant": "All sequences of calls together with all values, and reading back what was made.", "anchors": ["src/pycalendar/icalendar/property.py:Property.__init__", "src/pycalendar/property.py:PropertyBase._init_attr_value_text", "src/pycalendar/property.py:PropertyBase.setupValueParameter", "src/pycalendar/property.py:PropertyBase.registerDefaultValue"]}
{"id": "C90", "title": "Setting values of registered properties", "statement": "After any sequence of calls of registerDefaultValue, setValue with a value of the type that the VALUE parameter names, else the library has for the name, else the first call for the name gave, keeps name and parameters and takes the value (dates in the zone of TZID, if there is one); the line of the property is then read as a property with that name, the other parameters and that value. For names whose default type holds texts, setting a str gives the same value as the constructor. Properties of names without a call are set as if no call had been made. False: setting a str gives the value of the constructor for names without a default (setValue makes a text, the constructor a value of unknown type, and the lines differ).", "quantifier": "all sequences of calls, properties and values", "why_tests_cant": "All sequences of calls together with all values, and reading back what was set.", "anchors": ["src/pycalendar/property.py:PropertyBase.setValue", "src/pycalendar/property.py:PropertyBase.registerDefaultValue", "src/pycalendar/multivalue.py:MultiValue.setValue"]}
{"id": "C91", "title": "Time zone questions to a calendar", "statement": "Calendar.getTimezoneOffsetSeconds(tzid, dt, relative_to_utc) answers with the offset in force in the first VTIMEZONE of the calendar with that ID, and getTimezoneDescriptor with the text of the element in force there (under the condition of C50), whatever the calendar was asked before about whichever of its time zones; two calendars with the same definition give the same offset, whatever other time zones they have. For an ID that no VTIMEZONE has, and for None, the answers are 0 and the empty text and nothing changes. For a calendar that is read, that VTIMEZONE is the one getTimezone finds. If it was read from what the tz compiler wrote, under the conditions of C74, the answer for UTC times is the offset that the lines of the tz zone define. False: the answer is the offset of every VTIMEZONE with that ID (a second one is never asked).", "quantifier": "all calendars, IDs, times and sequences of earlier questions", "why_tests_cant": "All sequences of questions to all zones of a calendar, whose objects keep caches.", "anchors": ["src/pycalendar/icalendar/calendar.py:Calendar.getTimezoneOffsetSeconds", "src/pycalendar/icalendar/calendar.py:Calendar.getTimezoneDescriptor", "src/pycalendar/icalendar/calendar.py:Calendar.getTimezone"]}
{"id": "C92", "title": "Formats by name", "statement": "What Calendar.getText(includeTimezones, format) writes is read by parseData(data, format) as the same calendar, together with the time zones that getText added to it, if the format is text/calendar or not given, or application/calendar+json (the last if json.loads reads what json.dumps wrote). Card.getText and parseData do the same for text/vcard (or nothing) and application/vcard+json, and parseMultipleData reads several cards in the two named formats. With any other name nothing is written, read, or changed, and None is returned without an exception; data that is not JSON raises InvalidData. False: format names are compared like media types (Text/Calendar, or one with a charset parameter, gives None); parseMultipleData without a name reads text, as parseData does (it returns None).", "quantifier": "all calendars, vCards, format names and JSON libraries", "why_tests_cant": "All format names together with all calendars and cards.", "anchors": ["src/pycalendar/containerbase.py:ContainerBase.parseData", "src/pycalendar/containerbase.py:ContainerBase.getText", "src/pycalendar/icalendar/calendar.py:Calendar.getText", "src/pycalendar/vcard/card.py:Card.parseMultipleData"]}
{"id": "C93", "title": "What rules and recurrence sets tell user interfaces", "statement": "Recurrence.isSimpleRule holds exactly for rules without BY parts; isAdvancedRule exactly for rules whose only BY parts are BYMONTH, BYMONTHDAY with days 1 to 31 or -7 to -1, BYDAY with the same number (at most 4, at least -2, or none) on every day, and BYSETPOS with 1 or -1 alone; simple rules are advanced. getUIDescription of a rule is a text that is read as that rule. RecurrenceSet.getUIRecurrence is the RRULE if there is exactly one; getUIDescription says No Recurrence exactly if the set is empty and Multiple... exactly if it is neither empty nor a single rule; isSimpleUI and isAdvancedUI are false exactly if there is more than one RRULE with EXDATEs, and true if there is none. equalsDates and equalsPeriods answer exactly if the lists differ in length or are empty. False: that a set with a single rule has a description or can be shown (all three functions raise AttributeError); that a set is equal to itself (it raises); that negative month days are not advanced, as the comment in the code has it.", "quantifier": "all rules and recurrence sets", "why_tests_cant": "All rules and sets; exactly which of them raise.", "anchors": ["src/pycalendar/icalendar/recurrence.py:Recurrence.isSimpleRule", "src/pycalendar/icalendar/recurrence.py:Recurrence.isAdvancedRule", "src/pycalendar/icalendar/recurrence.py:Recurrence.getUIDescription", "src/pycalendar/icalendar/recurrenceset.py:RecurrenceSet.getUIDescription", "src/pycalendar/icalendar/recurrenceset.py:RecurrenceSet.isSimpleUI", "src/pycalendar/icalendar/recurrenceset.py:RecurrenceSet.equalsDates"]}
{"id": "C94", "title": "Reading components into a calendar, and the database of compiled zones", "statement": "Calendar.parseComponent leaves the calendar's own properties and components as they are and adds components after them, also when it raises; it returns the first that was added. It accepts every stream that parse() accepts, and if the stream ends one calendar only it adds exactly the components that parse() adds; it does not look at what follows the end of the calendar. It refuses a stream that begins with something else than a calendar, and raises the exception of a component's property that cannot be read. If it adds a VTIMEZONE, all VTIMEZONEs of the calendar are merged into the time zone database. A calendar that was written is read with the components that parseText() reads. A TimezoneDatabase whose directory was written by the tz compiler answers, after any lookups, questions and merges, for each compiled zone with the VTIMEZONE that the tz source defines, which tells the offsets that the source defines, and calls these zones standard (and, without links, no others); the name of a link stands for the zone that it leads to, under the name of the link, if the old name occurs only twice in the file of that zone. False: that parseComponent rejects what parse() rejects (streams that are cut off, without VERSION, with another VERSION or with unreadable calendar properties are accepted); that it leaves the calendar unchanged when it raises.", "quantifier": "all streams, calendars and parser settings; all tz sources, directories and sequences of calls that meet the stated premises", "why_tests_cant": "All streams; every sequence of calls before the lookup; every zone of the source.", "anchors": ["src/pycalendar/icalendar/calendar.py:Calendar.parseComponent", "src/pycalendar/timezonedb.py:TimezoneDatabase.cacheTimezone", "src/pycalendar/timezonedb.py:TimezoneDatabase.getTimezone", "src/zonal/tzconvert.py:tzconvert.generateZoneinfoFiles"]}
{"id": "C95", "title": "Functions that nothing calls: index of a text, private properties", "statement": "stringutils.strindexfind answers with the place of the first entry that is the text in upper case, strnindexfind with that of the first entry with which the text in upper case begins; the default if the list ends (None or an empty text) before there is one, or if there is no text or no list. ComponentBase.loadPrivateValue answers with the text of the property and takes all properties of that name away; without a text it changes nothing; other properties stay. False: that the default is the answer for every text that is not in the list (without an end in the list they raise IndexError); that an entry that is not in upper case is found.", "quantifier": "all texts, lists, defaults and property dictionaries", "why_tests_cant": "All lists, with and without an end.", "anchors": ["src/pycalendar/stringutils.py:strindexfind", "src/pycalendar/stringutils.py:strnindexfind", "src/pycalendar/componentbase.py:ComponentBase.loadPrivateValue"]}
