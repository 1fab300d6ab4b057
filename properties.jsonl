{"id": "C01", "title": "Calendar date to Julian day is the true day count", "statement": "For every real calendar date (Julian calendar up to 4 Oct 1582, Gregorian from 15 Oct 1582) the Julian day returned by toJD at 12:00 equals the number obtained by counting days one at a time from 1 Jan -4712 (JD 0), following only the leap-year rules and the 10-day jump of October 1582.", "quantifier": "all real dates from 1 March -4716 up to the year 5,772,803 (above that Y*372 leaves the int range); any time of day", "why_tests_cant": "millions of years of dates; the formula mixes double arithmetic with C truncation, so a single unlucky date could be off by one", "anchors": ["mylib/tool.cpp:toJD"]}
{"id": "C02", "title": "Julian day to calendar date is the true inverse of day counting", "statement": "setFromJD at noon of day number D returns exactly the calendar date reached by counting D days from JD 0, in particular it always returns a real calendar date and never one of the ten dates 5..14 Oct 1582.", "quantifier": "all day numbers D for which the program's int arithmetic does not overflow", "why_tests_cant": "unbounded range of days; rounding of (D-122.1)/365.25 and D/30.601 decides month boundaries", "anchors": ["mylib/tool.cpp:setFromJD"]}
{"id": "C03", "title": "Date round trip", "statement": "Converting a calendar date to a Julian day and back gives the same date, and converting a day number to a date and back gives the same day number.", "quantifier": "all real dates from 1 March -4716 up to year 5,772,803; all day numbers -1401..2100000000; any time of day not within the rounding error of midnight", "why_tests_cant": "round trip must hold for each of about 1.8 billion dates", "anchors": ["mylib/tool.cpp:toJD", "mylib/tool.cpp:setFromJD"]}
{"id": "C04", "title": "Years before -4716", "statement": "The round trip of C03 also holds for years before -4716 (the program accepts such years and its own demo uses year -5621).", "quantifier": "all years representable", "why_tests_cant": "tests around the modern era never reach the point where C truncation and floor differ", "anchors": ["mylib/tool.cpp:toJD"]}
{"id": "C05", "title": "Clock fields are in range", "statement": "For every double jd whose day number fits an int, setFromJD returns hour in 0..23, minute in 0..59 and second in [0,60).", "quantifier": "all finite doubles jd with -2147483648 <= jd <= 2147429998", "why_tests_cant": "2^60 inputs; a result of 24h or 60s would come from rounding of F*24 or F*60 for a few inputs only", "anchors": ["mylib/tool.cpp:setFromJD"]}
{"id": "C06", "title": "Printed date-time is a valid time of day", "statement": "JD2str/DD2str never prints an hour field above 23: rounding the seconds up at the end of a day must carry into the next date.", "quantifier": "all jd", "why_tests_cant": "only the last half second of a day is affected", "anchors": ["mylib/tool.cpp:DD2str", "mylib/tool.cpp:JD2str"]}
{"id": "C07", "title": "timeStr prints a valid time of day", "statement": "timeStr always prints hh:mm:ss with hh in 00..23, mm and ss in 00..59, and the printed time differs from the time of day of jd by at most half a second.", "quantifier": "all jd in the int range", "why_tests_cant": "only the last half second of a day is affected; the arithmetic s/3600.0, s/60.0 has to floor correctly for all 86400 values", "anchors": ["mylib/tool.cpp:timeStr"]}
{"id": "C08", "title": "Date text identifies the date", "statement": "The text made by DD2str determines year, month, day, hour, minute, second: the fields can be read back exactly.", "quantifier": "all dates with year between -9999 and 99999; and all other years (where the year column is cut)", "why_tests_cant": "needs all years and all fields; out-of-range years lose leading characters silently", "anchors": ["mylib/tool.cpp:DD2str"]}
{"id": "C09", "title": "Integer to text is exact decimal", "statement": "to_str of an int gives the canonical decimal text: reading the text in base ten gives the value back, no leading zero, '-' only for negative values; also for 64-bit integers.", "quantifier": "all 32-bit and 64-bit signed and unsigned integers", "why_tests_cant": "2^64 inputs; the code uses fixed-point reciprocal multiplications whose rounding must be right for each of them", "anchors": ["mylib/mystl/itoa.h:to_text_from_integer", "mylib/mystl/my_string.h:to_str"]}
{"id": "C10", "title": "Text to integer inverts integer to text, independent of history", "statement": "my_stoi(to_str(n)) = n for every int n, whatever conversions happened before in the process; out-of-range text is rejected.", "quantifier": "all ints n, all prior values of errno, all digit strings", "why_tests_cant": "depends on hidden process state (errno) left by earlier calls", "anchors": ["mylib/mystl/my_string.h:my_stoi"]}
{"id": "C11", "title": "string_replace replaces every occurrence and terminates", "statement": "For a non-empty pattern string_replace terminates and returns the text in which every leftmost non-overlapping occurrence is replaced; inserted text is never re-scanned.", "quantifier": "all byte strings; also the empty pattern (where it must not hang)", "why_tests_cant": "all strings; termination is not testable", "anchors": ["mylib/tool.cpp:string_replace"]}
{"id": "C12", "title": "split is lossless for a one-byte separator", "statement": "split(s, c) returns pieces without c whose concatenation with c in between is s; it never returns fewer than one piece and never throws.", "quantifier": "all byte strings s and all separator bytes c; also separators longer than one byte", "why_tests_cant": "all strings", "anchors": ["lunar/lunar_ob.cpp:split"]}
{"id": "C13", "title": "fill_str pads on the left to the requested width", "statement": "fill_str(s,n,c) is s preceded by exactly max(0,n-len(s)) copies of c.", "quantifier": "all strings s, c and all ints n", "why_tests_cant": "all strings and widths, including negative widths", "anchors": ["mylib/tool.cpp:fill_str"]}
{"id": "C14", "title": "Angle text fields stay in range and denote the angle", "statement": "rad2strE/rad2str2 print minutes and seconds below 60 after all carries, and the printed degrees/minutes/seconds differ from the value that was split by at most half a unit of the last printed digit.", "quantifier": "all split values (any non-negative number of degrees below 2^31), any number of decimals 0..5", "why_tests_cant": "the triple carry fires only for a vanishing set of angles", "anchors": ["mylib/tool.cpp:rad2strE", "mylib/tool.cpp:rad2str2"]}
{"id": "C15", "title": "Correction tables decompress to what the comments promise", "statement": "The 30 successive text replacements expand every letter of the compressed table independently of the order of replacement; the result contains only digits 0,1,2 and has 16598 entries (new moons) and 7567 entries (solar terms) as the comments promise.", "quantifier": "every input text for the expansion law; the two shipped tables for the lengths", "why_tests_cant": "order independence is a statement about all texts; a wrong length only shows as a read past the end at the end of the era", "anchors": ["lunar/lunar_ssq.cpp:SSQ::jieya"]}
{"id": "C16", "title": "Era correction lookups stay inside the decompressed tables", "statement": "For every jd for which the corrected historical algorithm is used, the index into the correction text is at least 0 and below its length, so no byte past the end is ever read, and the correction changes the day by at most one.", "quantifier": "all doubles jd in the era 619..1960 (new moons) and 1645..1960 (solar terms)", "why_tests_cant": "continuum of inputs; the bound depends on double division", "anchors": ["lunar/lunar_ssq.cpp:SSQ::calc"]}
{"id": "C17", "title": "Mean-calendar lookups stay inside the parameter tables", "statement": "For every jd for which the linear historical tables are used, the segment search stops at a segment that exists and that contains jd, so no parameter past the end is read; every jd is served by exactly one of the three eras.", "quantifier": "all doubles jd", "why_tests_cant": "continuum of inputs; comparison jd+pc < B[i+2] after rounding", "anchors": ["lunar/lunar_ssq.cpp:SSQ::calc"]}
{"id": "C18", "title": "Leap month rule", "statement": "When thirteen months fit between two winter solstices exactly one month is marked leap, it is month 1..12, it is the first month (after the solstice month) containing no major solar term, months before it keep their number and months from it on are numbered one lower; otherwise no month is leap.", "quantifier": "all tables of solar terms and new moons", "why_tests_cant": "all tables; the search loop is only bounded because of the guard above it", "anchors": ["lunar/lunar_ssq.cpp:SSQ::calcY"]}
{"id": "C19", "title": "Month naming never indexes outside the name tables", "statement": "In the years -721..-104 special naming, the year-head search always finds a year head, and every name index is within its table.", "quantifier": "all new-moon tables the era can produce", "why_tests_cant": "the search loop would read ns[-1] if no year head precedes the month", "anchors": ["lunar/lunar_ssq.cpp:SSQ::calcY"]}
{"id": "C20", "title": "Month names of a lunar year", "statement": "Outside the special eras the months of a lunar year carry the names 十一,腊,正,二,...,十 in cyclic order, the leap month repeats the name of the month before it, and no other two neighbouring months have the same name.", "quantifier": "all tables of solar terms and new moons", "why_tests_cant": "all tables and leap positions", "anchors": ["lunar/lunar_ssq.cpp:SSQ::calcY"]}
{"id": "C21", "title": "A month page lists the days of the month", "statement": "The page for a Gregorian/Julian month has as many days as the month (28..31, 21 in October 1582), its day labels are the days of that month in order, its day numbers are consecutive, and weekday advances by one per day and agrees with the day number; week rows are those of a Sunday-first calendar sheet.", "quantifier": "all months of all years >= -4716 in the int-safe range", "why_tests_cant": "all months; first weekday uses % on shifted values", "anchors": ["lunar/lunar.cpp:yueLiCalc"]}
{"id": "C22", "title": "Ordinal-weekday festivals", "statement": "An entry 'k-th weekday w of month m' is reported on exactly the k-th such weekday, and an entry with k=5 is reported exactly on the last such weekday whenever the weekday is Sunday.", "quantifier": "all month shapes (first weekday, number of days) and all days", "why_tests_cant": "the last-week shortcut is right only for some weekdays", "anchors": ["lunar/lunar_ob.cpp:OBA::getDayName"]}
{"id": "C23", "title": "Sexagenary pillars", "statement": "Year, month, day and hour pillars use in-range table indices, the day pillar advances one step of the 60-cycle per day, the hour pillar advances one step per double hour, the hour stem follows from the day stem by the five-rats rule and the month stem from the year stem by the five-tigers rule, and the marked entry of the 13-entry hour table equals the hour pillar.", "quantifier": "all instants in the int-safe range", "why_tests_cant": "all days and hours; negative remainders of C would index before the table", "anchors": ["lunar/lunar_ob.cpp:OBB::mingLiBaZi", "lunar/lunar.cpp:yueLiCalc"]}
{"id": "C24", "title": "Islamic calendar conversion", "statement": "getHuiLi returns exactly the date of the tabular Islamic calendar (30-year cycle, leap years 2,5,7,10,13,16,18,21,24,26,29, months of 30 and 29 days alternating, last month 30 in leap years) obtained by counting days from its epoch.", "quantifier": "all day numbers with |d0| < 2^30", "why_tests_cant": "unbounded days; the code uses empirical decimal constants", "anchors": ["lunar/lunar_ob.cpp:OBA::getHuiLi"]}
{"id": "C25", "title": "Era names of a year", "statement": "getNH(y) lists exactly the eras of the table whose span contains y, in table order, with the right year-in-era number, for any well-formed table; the shipped table is well formed (7 fields per era, three integers first).", "quantifier": "all years y, all well-formed era tables", "why_tests_cant": "all years and tables", "anchors": ["lunar/lunar_ob.cpp:OBB::getNH", "lunar/lunar_ob.cpp:OBB::init"]}
{"id": "C26", "title": "Fixed-date festivals", "statement": "getDayName never throws on the shipped festival table and reports an entry exactly when day and month agree and the year lies within the entry's limits (from 1850 if it has none), in the class given by its mark.", "quantifier": "all days of all years", "why_tests_cant": "all years; substr(5,1) throws on short entries", "anchors": ["lunar/lunar_ob.cpp:OBA::init", "lunar/lunar_ob.cpp:OBA::getDayName"]}
{"id": "C27", "title": "Laba festival is reported", "statement": "The lunar festival table reports 腊八节 on the eighth day of month 腊.", "quantifier": "all lunar days", "why_tests_cant": "a festival that can never be reported needs a statement about all days", "anchors": ["lunar/lunar_ob.cpp:OBB::getDayName2"]}
{"id": "C28", "title": "New Year's Eve is the last day of the year", "statement": "除夕 is reported on a day if and only if it is the last day of a month 腊 that is followed by month 正.", "quantifier": "all lunar days with month length 29 or 30", "why_tests_cant": "all combinations of month length, leap and next month", "anchors": ["lunar/lunar_ob.cpp:OBB::getDayName2"]}
{"id": "C29", "title": "Holiday flag is determined by the day", "statement": "After computing a month page the holiday flag of every day has a value determined by the day.", "quantifier": "all days", "why_tests_cant": "a read of an uninitialised flag often looks right in tests", "anchors": ["lunar/lunar.cpp:yueLiCalc", "lunar/lunar_ob.cpp:OBA::getDayName"]}
{"id": "C30", "title": "Lunar month containing a day", "statement": "Given month starts with lengths 29 or 30, the estimate-and-correct search in the month page finds the month that contains the day, so the day-in-month index is within the 30-entry name table and within the month; likewise for the 24 solar terms.", "quantifier": "all tables with month lengths 29/30 (solar term spacing 13..17 days and cumulative drift bound), all days covered", "why_tests_cant": "all tables", "anchors": ["lunar/lunar.cpp:yueLiCalc"]}
{"id": "C31", "title": "Angle normalisation", "statement": "rad2mrad returns a congruent angle in [0,2pi) and rad2rrad one in (-pi,pi].", "quantifier": "all real angles (exact arithmetic); all doubles for the range", "why_tests_cant": "all reals; the double result can round up to 2pi", "anchors": ["eph/eph0.cpp:rad2mrad", "eph/eph0.cpp:rad2rrad"]}
{"id": "C32", "title": "Delta-T table lookup is safe and piecewise correct", "statement": "dt_calc never reads outside its table for any year that is not NaN, uses the row that covers the year, and is continuous where the table meets the extrapolation and where the blend ends.", "quantifier": "all doubles y", "why_tests_cant": "continuum of years", "anchors": ["eph/eph0.cpp:dt_calc"]}
{"id": "C33", "title": "Precession quantity lookup", "statement": "For each of the twelve quantity names and each of the three models prece selects the row of that quantity and stays inside the coefficient table and inside its 4-byte name buffer.", "quantifier": "all supported names and models; every other short name", "why_tests_cant": "12 x 3 table offsets found by text search with overlapping names", "anchors": ["eph/eph0.cpp:prece"]}
{"id": "C34", "title": "Planet series evaluation stays inside its tables", "statement": "XL0_calc reads only inside the coefficient table of the planet for every requested number of terms.", "quantifier": "all planets, coordinates and term counts", "why_tests_cant": "all term counts; truncation count is computed with rounding", "anchors": ["eph/eph0.cpp:XL0_calc"]}
{"id": "C35", "title": "Moon series evaluation stays inside its tables", "statement": "XL1_calc reads only inside the coefficient tables for every requested number of terms.", "quantifier": "all coordinates and term counts in the int-safe range", "why_tests_cant": "all term counts", "anchors": ["eph/eph0.cpp:XL1_calc"]}
{"id": "C36", "title": "Precession and its inverse cancel", "statement": "Applying J2000-to-date precession and then date-to-J2000 precession (ecliptic or equatorial) returns the same direction.", "quantifier": "all directions, dates and models, in exact arithmetic", "why_tests_cant": "continuum; only true if each rotation is undone in reverse order with the right sign", "anchors": ["eph/eph0.cpp:CDllr_J2D", "eph/eph0.cpp:CDllr_D2J", "eph/eph0.cpp:HDllr_J2D", "eph/eph0.cpp:HDllr_D2J"]}
{"id": "C37", "title": "Coordinate rotation is a rotation", "statement": "llrConv turns the direction by the given angle about the x axis: the rectangular coordinates of the result are the rotated rectangular coordinates of the input and the distance is unchanged.", "quantifier": "all directions with |latitude| < pi/2 and all angles, in exact arithmetic", "why_tests_cant": "continuum", "anchors": ["eph/eph0.cpp:llrConv"]}
{"id": "C38", "title": "Spherical and rectangular coordinates are inverse", "statement": "xyz2llr and llr2xyz are inverse to each other.", "quantifier": "all non-zero vectors; all spherical coordinates in normal range; exact arithmetic", "why_tests_cant": "continuum", "anchors": ["eph/eph0.cpp:llr2xyz", "eph/eph0.cpp:xyz2llr"]}
{"id": "C39", "title": "Line meets Earth ellipsoid", "statement": "lineEll returns a point that lies both on the line and on the ellipsoid, and of the two intersections it is the one nearest to the first point; it reports a miss exactly when the line misses.", "quantifier": "all pairs of distinct points with positive semi-axes, exact arithmetic", "why_tests_cant": "continuum", "anchors": ["eph/eph.cpp:lineEll"]}
{"id": "C40", "title": "Contact times of a straight motion with a circle", "statement": "The contact time computed from position and velocity puts the moving point on the circle of the given radius, choosing the earlier or later root as requested, and reports none exactly when the path misses the circle.", "quantifier": "all positions, velocities (not both zero) and radii, exact arithmetic", "why_tests_cant": "continuum", "anchors": ["eph/eph_rspl.cpp:lineT", "eph/eph_yspl.cpp:lineT"]}
{"id": "C41", "title": "Besselian interpolation", "statement": "The interpolation in the eclipse table stays inside the table, returns the tabulated value at every table time it is centred on, and is exact for quantities quadratic in time.", "quantifier": "all table sizes produced by init, all times, exact arithmetic for the value", "why_tests_cant": "all times and tables", "anchors": ["eph/eph_rsgs.cpp:RS_GS::chazhi"]}
{"id": "C42", "title": "Eclipse table cache is coherent", "statement": "After init(jd,n) the table has n rows and belongs to the lunation of jd, whatever sequence of init calls was made before.", "quantifier": "all call histories", "why_tests_cant": "quantifies over histories", "anchors": ["eph/eph_rsgs.cpp:RS_GS::init"]}
{"id": "C43", "title": "Rise/set table does not depend on earlier calls", "statement": "The rise, transit and set times reported for a day by calcRTS depend only on the arguments of that call.", "quantifier": "all call histories", "why_tests_cant": "quantifies over histories", "anchors": ["eph/eph_szj.cpp:SZJ::calcRTS"]}
{"id": "C44", "title": "Illuminated fraction", "statement": "moonIll returns a value between 0 and 1.", "quantifier": "all times", "why_tests_cant": "continuum", "anchors": ["eph/eph0.cpp:moonIll"]}
{"id": "C45", "title": "Decimal text of a double is the rounded value", "statement": "to_str(v, precision) prints the digits found for v, rounded half up to the requested number of decimals; values below 1e-6 or from 1e21 on are shown with an exponent instead.", "quantifier": "all digit strings, decimal points and precisions", "why_tests_cant": "rounding carries through runs of nines only for rare values", "anchors": ["mylib/mystl/dtoa.h:Prettify", "mylib/mystl/dtoa.h:PrettifyRoundUP"]}
{"id": "C46", "title": "Shortest-digit generation is memory safe", "statement": "Digit generation reads only inside its power-of-ten tables for every finite double.", "quantifier": "all finite doubles", "why_tests_cant": "2^64 inputs", "anchors": ["mylib/mystl/dtoa.h:DigitGen", "mylib/mystl/dtoa.h:Grisu2"]}
{"id": "C47", "title": "A copied static_array is independent", "statement": "Iterating over a copy of a static_array visits the copy's own elements.", "quantifier": "all arrays and later updates", "why_tests_cant": "depends on aliasing after copies and destruction of the original", "anchors": ["mylib/mystl/static_array.h:static_array"]}
{"id": "C48", "title": "vector behaves as a list", "statement": "Every sequence of vector operations gives the element sequence that the same operations give on a mathematical list, and size, capacity and element access agree.", "quantifier": "all operation histories, all element values", "why_tests_cant": "quantifies over histories", "anchors": ["mylib/mystl/vector.h:vector"]}
{"id": "C49", "title": "vector insertion of one of its own elements", "statement": "push_back/insert/emplace of an element of the same vector stores the value the element had before the call.", "quantifier": "all vectors and positions", "why_tests_cant": "depends on aliasing together with reallocation", "anchors": ["mylib/mystl/vector.h:push_back", "mylib/mystl/vector.h:insert"]}
{"id": "C50", "title": "Place-name coordinates code", "statement": "Decoding of the 4-character position code inverts its encoding and always gives coordinates in the documented range for the alphabet 0-9A-Za-z.", "quantifier": "all codes over the alphabet", "why_tests_cant": "62^4 codes; character class boundaries", "anchors": ["mylib/lat_lon_data.cpp:GeographicalPosition"]}
{"id": "C51", "title": "Dog days and plum rains follow the stem-branch rule", "statement": "初伏, 中伏 are reported exactly on the third and fourth 庚 day from the summer solstice on, 末伏 on the first 庚 day from the beginning of autumn on, 入梅 on the first 丙 day from grain in ear on and 出梅 on the first 未 day from minor heat on.", "quantifier": "all days, all solstice/term days", "why_tests_cant": "ordinal rule against a comparison of texts and offsets, all phases of the 60-cycle", "anchors": ["lunar/lunar_ob.cpp:OBB::getDayName2"]}
{"id": "C52", "title": "Lunar day notes are complete and exact", "statement": "getDayName2 appends to the three note strings exactly the texts of the lunar-date festivals, the year end, the solar term, the nine nines and the seasonal days that are due, in that order, and sets the holiday flag exactly when one of them is a holiday, for every lunar date.", "quantifier": "all lunar dates, month names, terms and day numbers", "why_tests_cant": "all combinations of notes", "anchors": ["lunar/lunar_ob.cpp:OBB::getDayName2"]}
{"id": "C53", "title": "Year pillars change on the right day", "statement": "The year number of the page counted from the beginning of spring changes exactly on that day, the one counted from new year changes exactly on the first day of month 正; both are the year minus 1984.", "quantifier": "all days and all natural tables of all years outside the decreed month names", "why_tests_cant": "the year is found by rounding a day difference to tropical years", "anchors": ["lunar/lunar.cpp:yueLiCalc"]}
{"id": "C54", "title": "Month pillar follows the year pillar", "statement": "On every day of the page the month pillar is the one the five-tigers rule gives for the year pillar and the number of jie since the beginning of spring.", "quantifier": "all days of all natural tables", "why_tests_cant": "the two pillars are computed from different estimates", "anchors": ["lunar/lunar.cpp:yueLiCalc"]}
{"id": "C55", "title": "Month page is right for every calendar and history", "statement": "For every lunisolar calendar of which the year tables are windows, every month page is computed without undefined behaviour or exception, after any history of earlier page computations, and each day shows its civil date, lunar month and day, term, pillars, zodiac sign, Islamic date and exactly the festivals due.", "quantifier": "all calendars, all months of -4715..2700000, all call histories", "why_tests_cant": "static tables are reused between calls and switched within a page", "anchors": ["lunar/lunar.cpp:yueLiCalc", "lunar/lunar_ssq.cpp:SSQ::calcY"]}
{"id": "C56", "title": "Phases and terms are stored inside the page", "statement": "The loops that enter moon phases and exact solar terms write only to entries of days of the page, whatever the series return.", "quantifier": "all time functions", "why_tests_cant": "depends on the values of the series", "anchors": ["lunar/lunar.cpp:yueLiCalc"]}
{"id": "C57", "title": "Line meets ellipse", "statement": "lineOvl returns two points that lie on the line and on the ellipse with the given axis ratio, they are all the intersections, the number of them (1 or 2) and the distances from the start are right, and none is reported exactly when the line misses.", "quantifier": "all lines with a direction, all radii, positive axis ratios; exact arithmetic", "why_tests_cant": "continuum", "anchors": ["eph/eph.cpp:lineOvl"]}
{"id": "C58", "title": "Change of the centre", "statement": "h2g returns the position relative to the new centre: its rectangular coordinates are the difference of the two positions.", "quantifier": "all pairs of different positions; exact arithmetic", "why_tests_cant": "continuum", "anchors": ["eph/eph.cpp:h2g"]}
{"id": "C59", "title": "Horizontal coordinates satisfy the astronomical triangle", "statement": "CD2DP returns azimuth in [0,2pi) and altitude in [-pi/2,pi/2] that satisfy the three equations of the spherical triangle pole-zenith-star, distance unchanged.", "quantifier": "all directions with |declination| < pi/2, all places and sidereal times; exact arithmetic", "why_tests_cant": "continuum; quadrants", "anchors": ["eph/eph0.cpp:CD2DP"]}
{"id": "C60", "title": "Angular distance", "statement": "j1_j2 returns the angle between the two directions, in [0,pi]; below 1/1000 rad in both coordinates the short formula is within a relative error of one millionth of the chord squared.", "quantifier": "all pairs of directions; exact arithmetic", "why_tests_cant": "continuum", "anchors": ["eph/eph.cpp:j1_j2"]}
{"id": "C61", "title": "Besselian coordinates are inverse to equatorial ones", "statement": "cd2bse turns the equatorial position about the z axis and then the x axis, and bse2cd undoes it.", "quantifier": "all positions not on the Besselian pole; exact arithmetic", "why_tests_cant": "continuum", "anchors": ["eph/eph_rsgs.cpp:RS_GS::cd2bse", "eph/eph_rsgs.cpp:RS_GS::bse2cd"]}
{"id": "C62", "title": "Shadow point on the Earth", "statement": "lineEar and lineEar2 return a point of the line on the ellipsoid together with the longitude and geodetic latitude of the ellipsoid normal there, longitude in (-pi,pi], and report a miss exactly when the line misses.", "quantifier": "all lines through two different points, all axis ratios > 0; exact arithmetic", "why_tests_cant": "continuum", "anchors": ["eph/eph.cpp:lineEar", "eph/eph.cpp:lineEar2"]}
{"id": "C63", "title": "Longitudes in the eclipse table are unwrapped", "statement": "The angles that init stores in a row (right ascensions of Sun, Moon and crossing point) are never below those of the first row, and when the true motion since the first row is forward by less than a turn the stored difference is that motion.", "quantifier": "all pairs of angles less than a turn apart; monotonicity in double arithmetic, the motion in exact arithmetic", "why_tests_cant": "continuum, all positions of the jump at 2 pi", "anchors": ["eph/eph_rsgs.cpp:RS_GS::init"]}
{"id": "C64", "title": "Digits of a double read back as the same double", "statement": "The decimal digits and exponent that to_str finds for a double (before they are cut to the requested decimals) denote a number whose nearest double is that double; there are at most 17 digits and no leading zero.", "quantifier": "all finite non-zero doubles", "why_tests_cant": "2^64 inputs; depends on the error of 87 cached powers of ten", "anchors": ["mylib/mystl/dtoa.h:Grisu2", "mylib/mystl/dtoa.h:DigitGen", "mylib/mystl/dtoa.h:GetCachedPower"]}
{"id": "C65", "title": "vector gives up no storage with live objects in it", "statement": "No vector operation overwrites by construction, or frees, the storage of an element object that has not been destroyed.", "quantifier": "all operation histories, all element types and values", "why_tests_cant": "leaks have no visible result; depends on sizes, positions and capacity", "anchors": ["mylib/mystl/vector.h:fill_insert", "mylib/mystl/vector.h:reserve", "mylib/mystl/vector.h:reallocate_insert"]}
{"id": "C66", "title": "Choosing a listed place gives its coordinates", "statement": "Choosing a place by its numbers in the two menus, or typing its name, yields the coordinates stored for that place and the name of its province.", "quantifier": "all 3192 listed places; all place tables of that form", "why_tests_cant": "thousands of places, names that contain or equal other names", "anchors": ["mylib/lat_lon_data.cpp:GeographicalPosition"]}
{"id": "C67", "title": "Every answer to the place menus is handled", "statement": "For every number and text the user types GeographicalPosition returns coordinates without reading or writing outside its arrays.", "quantifier": "all numbers and texts", "why_tests_cant": "unbounded input", "anchors": ["mylib/lat_lon_data.cpp:GeographicalPosition"]}
{"id": "C68", "title": "The heap algorithms keep heaps", "statement": "push_heap turns a heap followed by one element into a heap; pop_heap moves a greatest element to the end and leaves a heap; make_heap makes a heap of any range; sort_heap puts a heap in ascending order; is_heap and is_sorted decide these conditions. Every one of them only rearranges the range and touches nothing outside it.", "quantifier": "all ranges of any length and element type, all strict weak orders", "why_tests_cant": "unbounded lengths and orders; off-by-one errors show only at special lengths", "anchors": ["mylib/mystl/heap_algo.h:push_heap_aux", "mylib/mystl/heap_algo.h:adjust_heap", "mylib/mystl/heap_algo.h:pop_heap", "mylib/mystl/heap_algo.h:sort_heap", "mylib/mystl/heap_algo.h:make_heap", "mylib/mystl/algo.h:is_heap", "mylib/mystl/algo.h:is_sorted"]}
{"id": "C69", "title": "sort puts a range in ascending order", "statement": "sort(first, last) and sort(first, last, comp) end, touch nothing outside the range and leave the same elements in ascending order.", "quantifier": "all ranges of any length and element type, all strict weak orders", "why_tests_cant": "different code runs from 129 elements on; unbounded lengths", "anchors": ["mylib/mystl/algo.h:sort", "mylib/mystl/algo.h:intro_sort", "mylib/mystl/algo.h:unchecked_partition", "mylib/mystl/algo.h:insertion_sort", "mylib/mystl/algo.h:unchecked_insertion_sort", "mylib/mystl/algo.h:final_insertion_sort"]}
{"id": "C70", "title": "partial_sort sorts the smallest elements to the front", "statement": "partial_sort(first, middle, last) leaves in [first, middle) the smallest elements of the range in ascending order and the others behind them.", "quantifier": "all ranges and middles, all strict weak orders", "why_tests_cant": "unbounded lengths", "anchors": ["mylib/mystl/algo.h:partial_sort"]}
{"id": "C71", "title": "nth_element puts the n-th smallest element in its place", "statement": "nth_element(first, nth, last) ends and rearranges the range such that nothing before nth is greater than the element at nth and nothing behind it is less; likewise with a function object.", "quantifier": "all ranges and positions, all strict weak orders", "why_tests_cant": "errors depend on the positions of the pivot and of equal elements", "anchors": ["mylib/mystl/algo.h:nth_element", "mylib/mystl/algo.h:unchecked_partition", "mylib/mystl/algo.h:median"]}
{"id": "C72", "title": "Binary search finds the place of a value", "statement": "On an ascending range lower_bound returns the first position whose element is not less than the value, upper_bound the first whose element is greater, equal_range both, and binary_search whether an equivalent element is present; likewise with a function object. Nothing outside the range is read.", "quantifier": "all ascending ranges of any length and element type, all values, all strict weak orders", "why_tests_cant": "unbounded lengths; errors show only for special positions and absent values", "anchors": ["mylib/mystl/algo.h:lower_bound", "mylib/mystl/algo.h:upper_bound", "mylib/mystl/algo.h:binary_search", "mylib/mystl/algo.h:equal_range"]}
{"id": "C73", "title": "Merging and the set operations give the right elements in order", "statement": "For ascending ranges merge, set_union, set_intersection, set_difference and set_symmetric_difference write an ascending range that holds, of every class of equivalent elements, exactly the elements the operation promises, in their order and those of the first range first; includes tells whether the first range holds every element of the second as often.", "quantifier": "all pairs of ascending ranges, all strict weak orders", "why_tests_cant": "multiplicities and stability need all combinations of equal elements", "anchors": ["mylib/mystl/algo.h:merge", "mylib/mystl/set_algo.h:set_union", "mylib/mystl/set_algo.h:set_intersection", "mylib/mystl/set_algo.h:set_difference", "mylib/mystl/set_algo.h:set_symmetric_difference", "mylib/mystl/algo.h:includes"]}
{"id": "C74", "title": "reverse, rotate and the shuffles rearrange as promised", "statement": "reverse turns a range around; rotate exchanges [first, middle) and [middle, last) for all three kinds of iterator and returns the new place of the first element; swap_ranges exchanges two ranges; random_shuffle only rearranges the range, whatever the random numbers. Nothing outside the range is touched.", "quantifier": "all ranges, middles, iterator kinds and random numbers", "why_tests_cant": "the cycles of rotate depend on the gcd of the lengths", "anchors": ["mylib/mystl/algo.h:reverse", "mylib/mystl/algo.h:rotate", "mylib/mystl/algo.h:random_shuffle", "mylib/mystl/algo.h:swap_ranges"]}
{"id": "C75", "title": "inplace_merge merges two neighbouring ranges", "statement": "inplace_merge(first, middle, last) leaves the stable merge of the two ascending ranges in their place, the same as merge would write, however large or small a buffer could be had, and touches nothing outside.", "quantifier": "all pairs of ascending ranges, all strict weak orders, every size of buffer, every kind of iterator", "why_tests_cant": "the code for small buffers only runs when memory is short", "anchors": ["mylib/mystl/algo.h:inplace_merge", "mylib/mystl/algo.h:merge_adaptive", "mylib/mystl/algo.h:merge_backward", "mylib/mystl/algo.h:rotate_adaptive", "mylib/mystl/algo.h:merge_without_buffer"]}
{"id": "C76", "title": "next_permutation and prev_permutation step through all arrangements", "statement": "next_permutation leaves the arrangement that follows in lexicographic order, with none between, and returns true; at the greatest arrangement it leaves the ascending one and returns false. prev_permutation does the opposite. lexicographical_compare decides the lexicographic order and is a strict weak order again.", "quantifier": "all ranges, also with equal elements, all strict weak orders", "why_tests_cant": "that no arrangement lies between quantifies over all arrangements", "anchors": ["mylib/mystl/algo.h:next_permutation", "mylib/mystl/algo.h:prev_permutation", "mylib/mystl/algobase.h:lexicographical_compare"]}
{"id": "C77", "title": "The algorithms that search a sequence find the first place, or none", "statement": "all_of, any_of, none_of, count and find answer for the sequence as a whole; search returns the first and find_end the last place where the second sequence occurs, search_n the first run of n elements, find_first_of and adjacent_find the first such element or pair; max_element and min_element return the first greatest and the first least element; mismatch and equal compare element by element. Without such a place the end is returned and nothing outside the sequences is read.", "quantifier": "all sequences, conditions and comparisons; find_end for forward and bidirectional iterators", "why_tests_cant": "that no earlier place qualifies quantifies over all places of sequences of any length", "anchors": ["mylib/mystl/algo.h:search", "mylib/mystl/algo.h:search_n", "mylib/mystl/algo.h:find_end", "mylib/mystl/algo.h:adjacent_find", "mylib/mystl/algo.h:max_element", "mylib/mystl/algobase.h:mismatch", "mylib/mystl/algobase.h:equal"]}
{"id": "C78", "title": "remove, replace, unique and partition rearrange a range as specified", "statement": "remove and remove_if put the elements that stay at the front in their order and return their end; replace changes exactly the matching elements; unique keeps the first of every run of equal neighbours, so of an ascending range one element of every class; partition puts the matching elements before the others and returns the border. The other elements of the container do not change.", "quantifier": "all ranges, also empty ones, conditions and comparisons", "why_tests_cant": "the exact content of the range after the call is claimed for ranges of any length", "anchors": ["mylib/mystl/algo.h:remove_if", "mylib/mystl/algo.h:replace_if", "mylib/mystl/algo.h:unique", "mylib/mystl/algo.h:partition"]}
{"id": "C79", "title": "is_permutation decides whether one sequence is a rearrangement of another", "statement": "is_permutation returns true exactly when the second sequence can be rearranged so that it equals the first element by element.", "quantifier": "all pairs of sequences, also of different length, all equivalences", "why_tests_cant": "there are n! rearrangements of a sequence", "anchors": ["mylib/mystl/algo.h:is_permutation"]}
{"id": "C80", "title": "A map or set behaves like the ordered list of its elements under every sequence of operations", "statement": "Starting from an empty map, any sequence of insert, emplace, emplace_hint (any hint), operator[], erase of a position, of a range, of a key and clear runs without touching anything but live nodes of the tree; afterwards iteration from begin() to end() gives exactly the elements of the abstract ordered list (a key that is there already is not inserted again), in strictly ascending order, size() is their number, insert tells whether it inserted and gives the position of a new element, erase gives the next position, every other memory cell is as before and no node stays allocated that is not in the list.", "quantifier": "all key orders that are strict weak orders, all sequences of operations of any length, all addresses the allocator may return", "why_tests_cant": "the red-black rebalancing has many cases that depend on the shape of trees of any size; absence of leaks and of stray writes quantifies over all histories", "anchors": ["mylib/mystl/rb_tree.h:insert_unique", "mylib/mystl/rb_tree.h:rb_tree_insert_rebalance", "mylib/mystl/rb_tree.h:rb_tree_erase_rebalance", "mylib/mystl/rb_tree.h:erase", "mylib/mystl/map.h:map"]}
{"id": "C81", "title": "A multimap or multiset keeps its elements in order under every sequence of operations", "statement": "The same for insert, emplace, emplace_hint, erase and clear of a multimap or multiset: nothing is lost, the order never descends; insert and emplace put a new element behind those with equivalent keys; emplace_hint puts it somewhere the order allows.", "quantifier": "all strict weak orders, all sequences of operations", "why_tests_cant": "as for C80; the place among equal keys is claimed for trees of any shape", "anchors": ["mylib/mystl/rb_tree.h:insert_multi", "mylib/mystl/rb_tree.h:emplace_multi_use_hint", "mylib/mystl/rb_tree.h:erase_multi"]}
{"id": "C82", "title": "Lookups in an ordered container answer for the list of its elements", "statement": "After any history lower_bound, upper_bound, find, count, equal_range give the first element not less, the first greater, the first equivalent element, the number of equivalent ones and the range of them (or the end); at() of a key that is there gives its element and operator[] the element or a new one with the given key.", "quantifier": "all histories of operations, all keys", "why_tests_cant": "answers for every key after every history", "anchors": ["mylib/mystl/rb_tree.h:lower_bound", "mylib/mystl/rb_tree.h:upper_bound", "mylib/mystl/rb_tree.h:find", "mylib/mystl/rb_tree.h:equal_range_unique", "mylib/mystl/map.h:at", "mylib/mystl/map.h:operator[]"]}
{"id": "C83", "title": "A search or insertion in an ordered container of n elements goes down at most 2 log2(n+1) levels", "statement": "After any history the loops of lower_bound, upper_bound and of the search for the place of an insertion end after at most 2 log2(n+1)+1 tests, n being size().", "quantifier": "all histories of operations, all keys", "why_tests_cant": "a bound for trees of every shape that operations can produce", "anchors": ["mylib/mystl/rb_tree.h:lower_bound", "mylib/mystl/rb_tree.h:get_insert_multi_pos"]}
{"id": "C84", "title": "A copied map has the same elements and is independent of the original; a moved map has them all", "statement": "The copy constructor gives a container with the same elements in the same order at the new addresses; whatever is done with the copy afterwards, the original keeps its elements. A move constructor hands all elements over and leaves size 0.", "quantifier": "all maps reached by any history, all addresses of the new nodes, all histories of the copy", "why_tests_cant": "independence quantifies over all later operations on the copy", "anchors": ["mylib/mystl/rb_tree.h:copy_from", "mylib/mystl/rb_tree.h:rb_tree(const rb_tree&)", "mylib/mystl/rb_tree.h:rb_tree(rb_tree&&)"]}
{"id": "C85", "title": "Every kind of solar eclipse is printed with its name", "statement": "The kind that feature() assigns is \"N\" or one of the ten keys of the table in rs2_calc, and lxb[r.lx] gives the listed name for each of them and an empty text for anything else; for the mixed kinds the name says which parts of the central line are total and which annular.", "quantifier": "all values of the shadow parameters (doubles, also NaN), all strings, all addresses of the nodes of the map", "why_tests_cant": "the parameters are doubles; the table is a red-black tree built at run time", "anchors": ["eph/eph_show.cpp:rs2_calc", "eph/eph_rsgs.cpp:feature"]}
{"id": "C86", "title": "The text of a year lists every month with all its terms", "statement": "nianLiSTR(y) has one line for every lunar month from the one with the winter solstice before the year to the one before the month with the next solstice. A line is the leap mark, the month's name, big or small, the first day as MM-DD with the exact new moon to the second, then exactly the solar terms whose days are in the month, in order, each with name, day and exact time; an exact time is red iff it falls on another day than the calendar's.", "quantifier": "all years -9000..90000, all calendars of natural months and evenly spaced terms that calcY gives for the middle of the year, all functions for the exact times (within 1000 days)", "why_tests_cant": "the terms of a month depend on how two calendars fall against each other; every year differs", "anchors": ["lunar/lunar.cpp:nianLiSTR", "lunar/lunar_ssq.cpp:calcY"]}
{"id": "C87", "title": "The closed astronomical formulas are computed to within rounding of the published ones", "statement": "hcjj (obliquity), gxc_sunLon, gxc_moonLat (aberration), nutation2, nutationLon2 (nutation), E_v, M_v (speeds), pGST (sidereal time) and moonRad return finite doubles within a stated small distance (5e-16, 7e-17, 2e-16, 2e-15, 1e-9, 6e-7, 5e-8 rad, 1e-11 arc seconds) of the value of the published formula in real arithmetic, and nutationLon2 is exactly the longitude of nutation2.", "quantifier": "all doubles t within 100 centuries of J2000 (pGST: all T within 3652500 days and dt within 10; moonRad: all distances 350000..420000 km), all sine and cosine routines correct to within one unit in the last place", "why_tests_cant": "a wrong digit in a coefficient shows only far from the present; the error must be bounded for a continuum of dates", "anchors": ["eph/eph0.cpp:hcjj", "eph/eph0.cpp:gxc_sunLon", "eph/eph0.cpp:gxc_moonLat", "eph/eph0.cpp:nutation2", "eph/eph0.cpp:nutationLon2", "eph/eph0.cpp:E_v", "eph/eph0.cpp:M_v", "eph/eph0.cpp:pGST", "eph/eph0.cpp:moonRad"]}
{"id": "C88", "title": "The quick eclipse search finds the new moon of its lunation and names the kind rightly when it says it is certain", "statement": "ecFast(jd) counts jd to lunation k (29.5306 k - 8 <= jd < 29.5306 (k+1) - 8, to 1e-8). If the mean argument of latitude F has |sin F| > 0.4 (to 1e-8) the answer is the mean new moon and \"N\"; otherwise jd is the new moon by one Newton step on the published truncated elongation, to 1e-7 days; if ac is true, lx is the kind of eclipse that the shadow cone of the published series makes at that moment, and the axis is at least 0.0159 Earth radii from every limit; if ac is false, some limit is within 0.0161 or the vertex of the umbra within 0.0201 of the ground. lx is always one of eleven names, and stepping 29.5306 days from the answer leads to lunation k+1.", "quantifier": "all doubles jd within 2950000 days of J2000, all sine and cosine routines correct to within one unit in the last place (names: all doubles, any library)", "why_tests_cant": "about 100000 lunations a side, and within each a continuum of start days; rounding near the limits decides the kind", "anchors": ["eph/eph.cpp:ecFast"]}
{"id": "C89", "title": "The longitudes of Sun and Moon are the series of their tables to within 0.001 arc seconds", "statement": "S_aLon(t,-1) and MS_aLon(t,-1,-1) return finite doubles within 2.1e-9 and 4.5e-9 radians of the apparent longitude of the Sun and of the Moon's elongation given in real arithmetic by all terms of the built-in tables (627 of the Moon, 376 of the Earth), mean motion, precession, nutation and aberration. With n (m, n) terms asked for they are within that and the sum of the amplitudes of the terms left out.", "quantifier": "all doubles t within 100 centuries of J2000, all term counts up to 134960 (Moon) and 672000 (Earth), all sine and cosine routines correct to within one unit in the last place", "why_tests_cant": "rounding of a thousand terms with arguments up to 1e6 turns cannot be sampled to a bound; a misread table row shows only in some years", "anchors": ["eph/eph0.cpp:S_aLon", "eph/eph0.cpp:MS_aLon", "eph/eph0.cpp:E_Lon", "eph/eph0.cpp:M_Lon", "eph/eph0.cpp:XL0_calc", "eph/eph0.cpp:XL1_calc", "eph/eph_data.h:XL0", "eph/eph_data.h:XL1"]}
{"id": "C90", "title": "S_aLon_t finds the one moment at which the Sun has a given longitude, to 2.2 seconds within 30 centuries", "statement": "S_aLon_t(W) returns a finite t at which the apparent longitude of the full series differs from W by at most 4e-7 radians; there is exactly one moment within 30 centuries of J2000 at which the series equal W, and t is within 2.2 seconds of it. Within 100 centuries the same holds with 2.66e-5 radians and 145 seconds.", "quantifier": "all doubles W with |W| <= 18780 (30 centuries) and |W| <= 62790 (100 centuries), all sine and cosine routines correct to within one unit in the last place", "why_tests_cant": "two Newton steps without a convergence test; the worst case over a continuum of longitudes is not sampled, and uniqueness cannot be tested", "anchors": ["eph/eph0.cpp:S_aLon_t", "eph/eph0.cpp:S_aLon", "eph/eph0.cpp:E_v"]}
{"id": "C91", "title": "MS_aLon_t finds the moment at which the Moon is a given angle ahead of the Sun, to 72 seconds within 20 centuries", "statement": "MS_aLon_t(W) returns a finite t at which the elongation of the full series differs from W by at most 1.38e-4 radians (28 arc seconds), and every moment within 20 centuries of J2000 at which the series equal W is within 72 seconds of t. Within 60 centuries the same holds with 0.00114 radians and 576 seconds.", "quantifier": "all doubles W with |W| <= 155400 (20 centuries) and |W| <= 466200 (60 centuries), all sine and cosine routines correct to within one unit in the last place", "why_tests_cant": "three Newton steps, the last with the speed of the one before, and no convergence test; the worst case over a continuum of angles is not sampled", "anchors": ["eph/eph0.cpp:MS_aLon_t", "eph/eph0.cpp:MS_aLon", "eph/eph0.cpp:M_v", "eph/eph0.cpp:E_v"]}
{"id": "C92", "title": "SSQ::calc returns the civil day of a solar term unless it falls within 2.3 seconds of midnight", "statement": "For a day of the years -738..-222 or 1960..2996 SSQ::calc(jd, QI) returns the day, in Beijing time, of the one moment at which the Sun's apparent longitude by the series is the multiple of 15 degrees belonging to jd; the day is certain unless the moment is within 2.3 seconds of a midnight, and it is within 17 days of jd.  The quick search is kept only where its error of at most 1196 seconds cannot change the day.", "quantifier": "all doubles jd in those eras; sin and cos of the C library are any functions correct to within 2^-52", "why_tests_cant": "the day depends on an iteration, a margin of 1200 seconds around midnight and the error of a truncated series over whole eras", "anchors": ["lunar/lunar_ssq.cpp:SSQ::qi_high", "lunar/lunar_ssq.cpp:SSQ::calc", "eph/eph0.cpp:XL::S_aLon_t2", "eph/eph0.cpp:XL::S_aLon_t"]}
{"id": "C93", "title": "The solar terms of a lunar year", "statement": "For a day of the years -735..-245 or 1961..2993 SSQ::calcY starts from 25 solar terms: entry i is the day of the Sun's longitude 270 degrees + 15 i of one and the same year, entry 0 is on or before the day asked for and entry 24 after it; the two terms before the solstice are those of 255 and 240 degrees.", "quantifier": "all doubles jd in those eras; sin and cos of the C library are any functions correct to within 2^-52", "why_tests_cant": "the start of the year is found by a floor of a mean motion corrected by one comparison", "anchors": ["lunar/lunar_ssq.cpp:SSQ::calcY", "lunar/lunar_ssq.cpp:SSQ::calc"]}
{"id": "C94", "title": "SSQ::calc returns the civil day of a new moon unless it falls within 250 seconds of midnight", "statement": "For a day of the years -738..-721 or 1960..2996 SSQ::calc(jd, SHUO) returns the day, in Beijing time, of the one moment between 30 centuries before and 10 centuries after J2000 at which the Moon's apparent longitude less the Sun's by the series is the multiple of 360 degrees belonging to jd; the day is certain unless the moment is within 250 seconds of a midnight, and it is within 22 days of jd.", "quantifier": "all doubles jd in those eras; sin and cos of the C library are any functions correct to within 2^-52", "why_tests_cant": "the day depends on an iteration, a margin of 1800 seconds around midnight and the error of a truncated series over whole eras", "anchors": ["lunar/lunar_ssq.cpp:SSQ::so_high", "lunar/lunar_ssq.cpp:SSQ::calc", "eph/eph0.cpp:XL::MS_aLon_t2", "eph/eph0.cpp:XL::MS_aLon_t"]}
{"id": "C95", "title": "The lunar calendar of every year from 1961 to 2993 follows Sun and Moon", "statement": "SSQ::calcY(jd) succeeds for every day of these years. Its 25 solar terms are the days on which the Sun reaches 270 degrees + 15 i by the series, its 15 month starts the days of successive new moons by the series, the first of the months holds the winter solstice, and jd lies both between the two solstices and within the 14 months. Every month has 29 or 30 days and the month lengths stored are these; major terms are 29 to 32 days apart and the solstices at most 366. There is a leap month exactly when thirteen new moons fall between the solstice months; it is then the first month without a major term, and all months before it have one. The months are named in order from the eleventh, the leap month like the one before it.", "quantifier": "all doubles jd between -14000 and 363000 days from J2000; sin and cos of the C library are any functions correct to within 2^-52", "why_tests_cant": "twelve thousand months; that no month of the series comes out with 28 or 31 days, and that searching by mean lunations neither skips nor repeats a new moon, holds for the moments of a continuum and not for those sampled", "anchors": ["lunar/lunar_ssq.cpp:SSQ::calcY", "lunar/lunar_ssq.cpp:SSQ::calc", "lunar/lunar_ssq.cpp:SSQ::so_high", "lunar/lunar_ssq.cpp:SSQ::qi_high"]}
{"id": "C96", "title": "mystl::list: adding, removing and reading elements", "statement": "push_front, push_back, insert, emplace and their variants put exactly the new elements at the given place; pop_front, pop_back, erase, clear, resize and assign remove exactly the elements they are to remove and free each of their nodes once. All other elements keep their value and their address, so that iterators to them stay valid; the iterators returned point to the new element or behind the removed ones; size(), empty(), front(), back() and iteration in both directions agree; no other memory is touched. A list of max_size elements refuses more; pop_front, pop_back, front, back and erase(end()) on an empty list are undefined.", "quantifier": "all lists of any length at any addresses, all positions, values and numbers of elements", "why_tests_cant": "the length of a list and the shape of memory are unbounded; a wrong prev link shows only when iterating backwards, and a node freed twice or never shows in no result at all", "anchors": ["mylib/mystl/list.h:list::insert", "mylib/mystl/list.h:list::erase", "mylib/mystl/list.h:list::clear", "mylib/mystl/list.h:list::resize", "mylib/mystl/list.h:list::copy_assign", "mylib/mystl/list.h:list::link_nodes", "mylib/mystl/list.h:list::unlink_nodes"]}
{"id": "C97", "title": "mystl::list: splice, remove, unique and reverse", "statement": "splice moves the nodes (all, one or a range) of another list before the position without copying or freeing any, and one node within a list; both sizes are right afterwards. remove and remove_if keep exactly the other elements in their order and free the rest; unique leaves no two neighbours alike and removes nothing else; reverse reverses. Not true: a range spliced within its own list is not moved at all, and remove(x) with x an element of the list itself reads a freed node.", "quantifier": "all pairs of lists, all positions and ranges, all predicates", "why_tests_cant": "unbounded lists and arbitrary predicates; links between nodes of two lists go wrong only in combinations of position and length", "anchors": ["mylib/mystl/list.h:list::splice", "mylib/mystl/list.h:list::remove_if", "mylib/mystl/list.h:list::unique", "mylib/mystl/list.h:list::reverse"]}
{"id": "C98", "title": "mystl::list: merge and sort", "statement": "For every comparison, even one that is no order, merge and sort come to an end and keep exactly the nodes they were given, none copied, lost or doubled. For a strict weak order the merge of two sorted lists is their stable merge, and sort sorts stably.", "quantifier": "all lists, all comparison functions", "why_tests_cant": "sort works by relinking runs of nodes recursively; stability and termination for all lengths and comparisons cannot be tried out", "anchors": ["mylib/mystl/list.h:list::merge", "mylib/mystl/list.h:list::list_sort", "mylib/mystl/list.h:list::sort"]}
{"id": "C99", "title": "mystl::list: construction, destruction, move and comparison", "statement": "Construction gives a list of the values in order and uses only new nodes; destruction frees every node once, so that construction and destruction leave the memory as it was. Move construction and move assignment take over the nodes and free the old elements; operator== holds exactly when both lists have the same length and equal values. Not true: a list moved from is an empty list (it has no end node: empty(), push_back and assigning from it dereference null), and self move assignment keeps the elements.", "quantifier": "all lists", "why_tests_cant": "leaks and double frees show in no result; unbounded lists", "anchors": ["mylib/mystl/list.h:list::list", "mylib/mystl/list.h:list::~list", "mylib/mystl/list.h:list::operator=", "mylib/mystl/list.h:operator=="]}
{"id": "C100", "title": "The list of solar eclipses goes through the new moons one by one and reports each eclipse once", "statement": "rs_search(Y, M, n, fs) examines the new moons k0, k0+1, ..., k0+n-1, each exactly once and in order, where k0 is the new moon nearest to the first day of the month: it lies between 18 days before and 15 days after it, and the new moon before it is more than 15 days over. The text consists, for each of them that is an eclipse, of the civil date (year in five places, month, day) of its moment and its kind, with a new line after every fifth. A kind that the quick search calls certain is the kind by its series (C88); the others are those of the close examination.", "quantifier": "all months from about the year -993 to 4993, all n up to 60000, all libraries of sin and cos correct to 2^-52, every close examination whose moment is within 8 days of the mean new moon", "why_tests_cant": "the step from one new moon to the next starts from a computed moment; that no month is skipped or counted twice must hold at every one of some 70000 new moons and for the rounding of each step", "anchors": ["eph/eph_show.cpp:rs_search", "eph/eph.cpp:ecFast"]}
{"id": "C101", "title": "Sunrise, sunset, twilight and transits of a day", "statement": "SZJ::St(jd) of a station (longitude L, latitude fa) returns moments of the local day nearest to jd. At d_z and d_x the Sun is on the meridian, above and below the pole, within 3.04e-4 of a radian, and they are within 29 minutes of local mean noon and midnight. Each of the other eight (sunrise, sunset, and begin and end of the civil, nautical and astronomical twilight) lies on the proper side of noon, and the sine of the Sun's true altitude at it is that of -50 minutes, -6, -12 or -18 degrees within 3.03e-4 + 0.0098 times the length of the last step in days; or else the text says that there is none, and then the Sun's declination is such that no hour angle would take it across that altitude by more than 3.03e-4. Up to 60 degrees of latitude sunrise and sunset always exist and the error is at most 3.37e-4 (70 arc seconds).", "quantifier": "all days within 1000000 days of J2000 (some 2738 years), all longitudes up to 7 radians, all latitudes up to 1.57, all libraries of the mathematical functions correct to 2^-52 or 2^-51", "why_tests_cant": "continuum of places and moments; near the polar circles the two steps of the method and the test for existence work at different moments, and the hour angle is taken modulo a turn", "anchors": ["eph/eph_szj.cpp:SZJ::St", "eph/eph_szj.cpp:SZJ::Scoord", "eph/eph_szj.cpp:SZJ::getH", "eph/eph_szj.cpp:mod2", "eph/eph0.cpp:llrConv"]}
{"id": "C102", "title": "The place of a body as seen by the observer", "statement": "parallax(z, H, fa, high) is the geocentric place minus the place of the station: the point at the height high above the Earth's ellipsoid where the vertical makes the angle fa with the equator, on the meridian whose right ascension is that of the body plus H. Distances below 500 are astronomical units, others kilometres. shiChaJ is the angle at the body between the pole and the zenith: sine and cosine rules of the astronomical triangle hold.", "quantifier": "all places of bodies and stations with latitude inside (-pi/2, pi/2), in exact arithmetic", "why_tests_cant": "identities between trigonometric expressions on a continuum of places; a sign or a factor of the flattening shows only in the last digits", "anchors": ["eph/eph0.cpp:parallax", "eph/eph0.cpp:shiChaJ"]}
{"id": "C103", "title": "Kind, magnitude and contacts of a lunar eclipse", "statement": "lecMax reports a total, partial or no eclipse exactly when the path of the moon, taken as straight through its place at one moment near the middle with the speed of the minute after it, enters the circles with the difference or the sum of the radii; the middle is the moment nearest to the centre of the shadow, and the magnitude is (sum of radii - least distance) / diameter of the moon. Each contact is the first or last meeting with its circle of the straight path through the true place at a first estimate; its error is at most the deviation from straightness between estimate and contact. For straight motion all seven moments are exact and in order, whatever the start. Not true: every announced contact exists (a path curved enough makes the second estimate miss the circle and the moment 0, that is noon of 2000 January 1, is stored).", "quantifier": "all motions of the moon and radii (any function in place of lecXY), all starting values, in exact arithmetic", "why_tests_cant": "continuum of motions; grazing eclipses, where the quadratic equation has nearly equal roots, are rare in any sample", "anchors": ["eph/eph_yspl.cpp:YS_PL::lecMax", "eph/eph_yspl.cpp:YS_PL::lineT"]}
{"id": "C104", "title": "Local circumstances of a solar eclipse", "statement": "secMax takes as greatest eclipse the best of 20 moments tried around the nearest point of the straight path; kind, magnitude and ratio are those at that moment; first and last contact are three times, second and third contact once improved meetings with the circle of the sum or difference of the radii; every moment stored is 0 or between sunrise and sunset, and when the greatest eclipse is below the horizon the magnitude at sunrise or sunset replaces it. For straight motion all five moments are exact. Not true: an eclipse invisible at the place is not announced (one that is over before sunrise keeps its kind and its magnitude).", "quantifier": "all motions of the moon relative to the sun and radii (any function in place of secXY), all moments of sunrise and sunset, in exact arithmetic", "why_tests_cant": "continuum of motions and places; the cases near the horizon combine six moments and two magnitudes", "anchors": ["eph/eph_rspl.cpp:RS_PL::secMax", "eph/eph_rspl.cpp:RS_PL::lineT"]}
{"id": "C105", "title": "mystl::deque: iterators are positions", "statement": "An iterator of a deque of n values stands at one of the positions 0 to n. The difference of two iterators, their equality and their order are those of the positions; ++, --, +n and -n lead to the iterator of the position that much further, across any number of buffers, as long as it is between 0 and n; * gives the value at the position. begin() stands at 0 and end() at n.", "quantifier": "all deques (any number and position of buffers), all positions, all steps, every buffer size", "why_tests_cant": "the step across buffers divides negative numbers and the end can lie on a buffer of its own; cases depend on the offset of the first value in its buffer", "anchors": ["mylib/mystl/deque.h:deque_iterator::operator+=", "mylib/mystl/deque.h:deque_iterator::operator-", "mylib/mystl/deque.h:deque_iterator::operator++", "mylib/mystl/deque.h:deque_iterator::operator--", "mylib/mystl/deque.h:deque_iterator::operator<"]}
{"id": "C106", "title": "mystl::deque: access, the two ends and the buffers", "statement": "size, empty, [], at, front and back are those of the sequence of values. push_front, push_back, pop_front and pop_back add and remove the value at that end and change no other; shrink_to_fit changes no value. No operation touches a block that belongs to another object. A deque built and changed with these operations only has buffers exactly from the one of begin() to the one of end(), and no buffer is ever lost or freed twice: every block in use afterwards was in use by somebody else before or belongs to the deque.", "quantifier": "all deques in every reachable or unreachable state that satisfies the representation (any offset, any place in the map, any spare buffers), all values, buffers of at least two slots", "why_tests_cant": "the map is reallocated after thousands of elements only; leaks show in no result", "anchors": ["mylib/mystl/deque.h:deque::push_front", "mylib/mystl/deque.h:deque::push_back", "mylib/mystl/deque.h:deque::pop_front", "mylib/mystl/deque.h:deque::pop_back", "mylib/mystl/deque.h:deque::shrink_to_fit", "mylib/mystl/deque.h:deque::require_capacity", "mylib/mystl/deque.h:deque::reallocate_map_at_front", "mylib/mystl/deque.h:deque::reallocate_map_at_back"]}
{"id": "C107", "title": "mystl::deque: inserting and erasing anywhere, resize and assign", "statement": "insert of one value, of n copies and of a range (forward iterators) puts the values before the position; erase removes the value or the range; resize, assign and clear give the sequence asked for; the iterator returned stands at the place of the change; other objects' blocks are untouched and erase loses no buffer. Not true: erase of a range (and with it resize, assign and operator= to fewer values) works for types with a destructor (when the slots that become free are not in one buffer the code runs with a pointer out of its buffer); a range of input iterators is inserted in order (in the first half it arrives reversed); insertion never loses a buffer (a spare buffer is overwritten).", "quantifier": "all deques, positions, counts and values", "why_tests_cant": "whether elements before or after the position are moved, and through which buffers, depends on position, count and offset; buffers hold 16 to 4096 values", "anchors": ["mylib/mystl/deque.h:deque::insert", "mylib/mystl/deque.h:deque::insert_aux", "mylib/mystl/deque.h:deque::fill_insert", "mylib/mystl/deque.h:deque::copy_insert", "mylib/mystl/deque.h:deque::insert_dispatch", "mylib/mystl/deque.h:deque::erase", "mylib/mystl/deque.h:deque::clear", "mylib/mystl/deque.h:deque::resize", "mylib/mystl/deque.h:deque::fill_assign", "mylib/mystl/deque.h:deque::copy_assign"]}
{"id": "C108", "title": "mystl::deque: construction, move and destruction", "statement": "Construction from n copies, from a range of forward iterators or from another deque gives the sequence, in new blocks that all belong to the deque. Move construction takes over the values; swap exchanges them. Destruction frees the map and destroys every value once. An operation on one deque leaves any other deque as it is. Not true: destruction frees all buffers (exactly those after the first one stay allocated, so that it leaks if and only if the values reach beyond one buffer); move assignment frees the old blocks and empties the source; construction from n input iterators gives n values (it gives 2n, the first n never constructed); a deque that was moved from can be used again.", "quantifier": "all deques and values", "why_tests_cant": "leaks and values that are not constructed show in no result of small tests", "anchors": ["mylib/mystl/deque.h:deque::map_init", "mylib/mystl/deque.h:deque::copy_init", "mylib/mystl/deque.h:deque::fill_init", "mylib/mystl/deque.h:deque::~deque", "mylib/mystl/deque.h:deque::clear", "mylib/mystl/deque.h:deque::operator=", "mylib/mystl/deque.h:deque::swap"]}
{"id": "C109", "title": "hashtable: looking up", "statement": "find returns an element with the key, or end() exactly when there is none. count is the number of elements with the key. equal_range_multi returns the block of all elements with the key (they are neighbours in the order of iteration), equal_range_unique the one element or an empty range; both are the pair of end() when there is none. at() returns an element with the key and throws exactly when there is none.", "quantifier": "all tables, all keys, every hash function and every equality that is an equivalence respected by the hash", "why_tests_cant": "collisions and long chains depend on the hash function and the number of buckets", "anchors": ["mylib/mystl/hashtable.h:hashtable::find", "mylib/mystl/hashtable.h:hashtable::count", "mylib/mystl/hashtable.h:hashtable::equal_range_multi", "mylib/mystl/hashtable.h:hashtable::equal_range_unique", "mylib/mystl/unordered_map.h:unordered_map::at"]}
{"id": "C110", "title": "hashtable: iterators and buckets", "statement": "From begin() to end() the iterators pass every element exactly once, size() elements in all. bucket_size(n) is the number of elements of bucket n, and these are the elements whose hash modulo the number of buckets is n.", "quantifier": "all tables", "why_tests_cant": "++ has to find the next bucket that is not empty, whatever buckets are empty", "anchors": ["mylib/mystl/hashtable.h:hashtable::begin", "mylib/mystl/hashtable.h:hashtable::bucket_size", "mylib/mystl/hashtable.h:ht_iterator::operator++"]}
{"id": "C111", "title": "hashtable: insertion", "statement": "insert_multi adds the value; insert_unique adds it exactly when no element has its key and otherwise returns the element that has it; the ranges do this for each value in turn (the first value with a key wins); operator[] returns the element with the key and adds one if there is none. All other elements stay in the table, size() counts them, equal keys stay neighbours and nothing outside the table changes. Without a rehash all iterators stay valid.", "quantifier": "all tables and values", "why_tests_cant": "an insertion may rebuild the whole table; the position in the chain depends on equal keys", "anchors": ["mylib/mystl/hashtable.h:hashtable::insert_multi", "mylib/mystl/hashtable.h:hashtable::insert_unique", "mylib/mystl/hashtable.h:hashtable::insert_multi_noresize", "mylib/mystl/hashtable.h:hashtable::insert_unique_noresize", "mylib/mystl/hashtable.h:hashtable::copy_insert_multi", "mylib/mystl/hashtable.h:hashtable::copy_insert_unique", "mylib/mystl/unordered_map.h:unordered_map::operator[]"]}
{"id": "C112", "title": "hashtable: emplacement", "statement": "emplace_multi adds the value; emplace_unique adds it exactly when no element has its key and otherwise returns the element that has it, and then gives the node back that it made. Not true of the last part: with a key that is there the new node is neither in the table nor freed, not even by the destructor.", "quantifier": "all tables and values", "why_tests_cant": "a lost node shows in no result", "anchors": ["mylib/mystl/hashtable.h:hashtable::emplace_multi", "mylib/mystl/hashtable.h:hashtable::emplace_unique", "mylib/mystl/hashtable.h:hashtable::insert_node_multi", "mylib/mystl/hashtable.h:hashtable::insert_node_unique"]}
{"id": "C113", "title": "hashtable: number of buckets and load factor", "statement": "ht_next_prime(n) is the least number of the table that is not less than n (the last for greater n). rehash(n) keeps the elements and leaves at least n buckets; with the maximum load factor 1 reserve(n) does so too for n < 2^24, and after every insertion there are at least as many buckets as elements, up to 2^24 elements. Not true: a rehash frees the old nodes (it copies every element and loses all the old ones); with another maximum load factor the load factor stays below it.", "quantifier": "all tables, all n, all histories", "why_tests_cant": "the test is done in single precision; lost nodes show in no result", "anchors": ["mylib/mystl/hashtable.h:ht_next_prime", "mylib/mystl/hashtable.h:hashtable::rehash", "mylib/mystl/hashtable.h:hashtable::replace_bucket", "mylib/mystl/hashtable.h:hashtable::reserve", "mylib/mystl/hashtable.h:hashtable::rehash_if_need", "mylib/mystl/hashtable.h:hashtable::load_factor"]}
{"id": "C114", "title": "hashtable: erasing", "statement": "erase(position), erase(first, last), erase_unique(key) and clear() take out exactly the elements named, keep the order of the others, count right, free the nodes taken out and change nothing else; iterators to other elements stay valid.", "quantifier": "all tables, positions and ranges, also ranges over several buckets", "why_tests_cant": "first and last may be in the same bucket, in different buckets or at the end, with empty buckets between", "anchors": ["mylib/mystl/hashtable.h:hashtable::erase", "mylib/mystl/hashtable.h:hashtable::erase_bucket", "mylib/mystl/hashtable.h:hashtable::erase_unique", "mylib/mystl/hashtable.h:hashtable::clear"]}
{"id": "C115", "title": "hashtable: erasing all elements with a key", "statement": "erase_multi(key) takes out the elements with the key and returns their number. Not true: it returns 0 when there is none, and whenever there is one it reads freed nodes, because the distance from first to last is taken after the nodes are erased.", "quantifier": "all tables and keys", "why_tests_cant": "freed memory often still has its old contents, so that a test may see the right number", "anchors": ["mylib/mystl/hashtable.h:hashtable::erase_multi"]}
{"id": "C116", "title": "hashtable: construction, copy, move, destruction, comparison", "statement": "A new table is empty with at least the wanted number of buckets; the unordered containers made from a range hold its values (the first of each key when unique). A copy has the same values in the same order in new nodes, assignment too, and the old nodes are freed; move assignment takes the nodes over and frees the old ones; the destructor frees all nodes of the table; the source of a copy and everything else stays. equal_to_unique is true exactly when both tables hold the same values. Not true: the constructor of hashtable from a range inserts its values (it sets the size and inserts none); a table that was moved from can be searched (it divides by zero); begin(n) can be called for every bucket (it asserts n < size()).", "quantifier": "all tables and values", "why_tests_cant": "the order of buckets and collisions are arbitrary", "anchors": ["mylib/mystl/hashtable.h:hashtable::hashtable", "mylib/mystl/hashtable.h:hashtable::init", "mylib/mystl/hashtable.h:hashtable::copy_init", "mylib/mystl/hashtable.h:hashtable::swap", "mylib/mystl/hashtable.h:hashtable::operator=", "mylib/mystl/hashtable.h:hashtable::~hashtable", "mylib/mystl/hashtable.h:hashtable::equal_to_unique", "mylib/mystl/hashtable.h:hashtable::begin", "mylib/mystl/unordered_map.h:unordered_map::unordered_map", "mylib/mystl/unordered_set.h:unordered_set::unordered_set"]}
{"id": "C117", "title": "hashtable: any history of operations", "statement": "Starting from an empty table with unique keys, after any sequence of insertions, insertions of ranges, erasures of keys, clear, rehash and copies the table holds exactly the values that a plain list would hold under the same operations, every key once; size() is their number and find answers as a search of the list.", "quantifier": "all histories of any length, all values, every hash function", "why_tests_cant": "the number of histories is infinite; rehashing happens at sizes a test rarely reaches", "anchors": ["mylib/mystl/hashtable.h:hashtable::insert_unique", "mylib/mystl/hashtable.h:hashtable::erase_unique", "mylib/mystl/hashtable.h:hashtable::clear", "mylib/mystl/hashtable.h:hashtable::rehash", "mylib/mystl/hashtable.h:hashtable::copy_init", "mylib/mystl/hashtable.h:hashtable::find"]}
{"id": "C118", "title": "queue and stack", "statement": "Any history of push, emplace, pop, front, back, size, empty and clear on a queue returns what a list with the new values at its end returns, and on a stack (top, push, pop, …) what a list with the new values at its head returns; an operation that needs a value fails exactly when there is none. Nothing outside the container changes and no block of memory is lost.", "quantifier": "all histories of any length, all values, all buffer sizes", "why_tests_cant": "the number of histories is infinite; buffers are added and freed along the way", "anchors": ["mylib/mystl/queue.h:queue", "mylib/mystl/stack.h:stack"]}
{"id": "C119", "title": "priority_queue", "statement": "For every strict weak order and any history of construction, copy, push, pop, top, size, empty and clear: the queue is a bag of values, top is a greatest one of them, pop removes the one that top returns and keeps all the others; pop and top fail exactly when there is none. Taking top and pop until it is empty gives all values in descending order.", "quantifier": "all histories of any length, all values, all strict weak orders", "why_tests_cant": "the heap is rearranged by every operation; equal values may be exchanged", "anchors": ["mylib/mystl/queue.h:priority_queue"]}
{"id": "C120", "title": "numeric.h", "statement": "partial_sum and adjacent_difference write the sums (differences) of the source to the destination, return its end and change nothing else, also in place and when the destination begins before the source; in place each undoes the other. accumulate and inner_product combine the values from left to right; iota fills the range by counting up.", "quantifier": "all ranges, all operations (also ones that are not associative)", "why_tests_cant": "source and destination may overlap in any way", "anchors": ["mylib/mystl/numeric.h:accumulate", "mylib/mystl/numeric.h:adjacent_difference", "mylib/mystl/numeric.h:inner_product", "mylib/mystl/numeric.h:iota", "mylib/mystl/numeric.h:partial_sum"]}
{"id": "C121", "title": "Minutes and seconds", "statement": "m2fm shows a number of seconds below 2147483700 as its sign, its whole minutes and the text of the exact remainder, which is at least 0 and below 60, with the units chosen by the last argument. Rounding of the quotient never shifts the minutes. The seconds shown are below 60 and within half a unit of the last place.", "quantifier": "all finite doubles, all precisions from 0 to 8, all three kinds of units", "why_tests_cant": "the danger is at values just below a multiple of 60, one double in 2^53", "anchors": ["mylib/tool.cpp:m2fm"]}
{"id": "C122", "title": "Radii of the Moon's shadow", "statement": "With Sun and Moon as discs across the axis, an observer in the fundamental plane sees part of the Sun hidden exactly inside the radius r1 of rSM, all of it hidden exactly within r2, and the whole Moon in front of the Sun exactly within -r2. The magnitude is the ratio of the apparent sizes and is at least (at most) 1 exactly when the eclipse on the axis is total (annular).", "quantifier": "all distances, all radii, all positions of the observer", "why_tests_cant": "a statement about every line of sight to every point of the Sun", "anchors": ["eph/eph_rsgs.cpp:RS_GS::rSM", "eph/eph_rsgs.cpp:RS_GS::init"]}
{"id": "C123", "title": "Apexes of the shadow cones", "statement": "zb0 places the apex of the umbra behind the Moon and that of the penumbra between Sun and Moon, on the line through their centres; a line through either apex touches the Sun exactly when it touches the Moon.", "quantifier": "all positions of Sun and Moon, all lines through the apex", "why_tests_cant": "tangency is exact equality for a continuum of lines", "anchors": ["eph/eph_rspl.cpp:RS_PL::zb0"]}
{"id": "C124", "title": "Speed of a place on the turning Earth", "statement": "On the side of the Earth that faces the Moon, vx and vy of Vxy are the time derivatives of the Besselian coordinates of a place that turns with the Earth, Vx and Vy the speed of the shadow relative to it and V its amount.", "quantifier": "all places, all orientations of the axis", "why_tests_cant": "a derivative is not observable by running the code", "anchors": ["eph/eph_rsgs.cpp:RS_GS::Vxy"]}
{"id": "C125", "title": "Place below a Besselian position", "statement": "bse2db answers the longitude and latitude of the direction from the Earth's centre (sphere), or of the normal where that ray meets the ellipsoid. bseXY2db answers those of a point of the ellipsoid on the line at right angles to the fundamental plane, or 100 for both exactly when that line misses the Earth.", "quantifier": "all positions except on the axes, all orientations", "why_tests_cant": "geometric truth of the answer over continuous inputs", "anchors": ["eph/eph_rsgs.cpp:RS_GS::bse2db", "eph/eph_rsgs.cpp:RS_GS::bseXY2db"]}
{"id": "C126", "title": "Instants of a solar eclipse", "statement": "For shadow motion along a line, feature's middle is the unique instant of least distance between axis and Earth's centre; its D is that distance with the side as sign; the axis is nearer than ls exactly between the two instants computed for ls, and at ls at these instants. Speed and acceleration from three positions are exact for uniformly accelerated motion; at the noon instant the axis crosses x = 0.", "quantifier": "all positions and speeds", "why_tests_cant": "exactly-between is a statement about every instant", "anchors": ["eph/eph_rsgs.cpp:RS_GS::feature"]}
{"id": "C127", "title": "Limits of an eclipse", "statement": "nanbei reads no unset variable and answers the point where the line from the Moon's limb to the edge of the shadow meets the Earth, or 100 when it misses. The edge point is at the distance r from the axis, across the motion relative to the turning surface and on the asked side. mDian's answers lie on the limb of the Earth's disc, across the relative motion, at most r from the axis.", "quantifier": "all positions, speeds and orientations, all exits of the iteration", "why_tests_cant": "the loops have several exits and the claims are exact", "anchors": ["eph/eph_rsgs.cpp:RS_GS::nanbei", "eph/eph_rsgs.cpp:RS_GS::mDian"]}
{"id": "C128", "title": "Constructing elements in raw storage when a constructor throws", "statement": "The functions uninitialized_copy, _fill, _move and their _n forms either construct all elements and return the end, or, when a constructor throws, destroy what they constructed, nothing else, and let the exception reach the caller.", "quantifier": "all element types, values, memories and all patterns of throwing constructors", "why_tests_cant": "the catch blocks run only when a constructor fails at a chosen moment", "anchors": ["mylib/mystl/uninitialized.h:uninitialized_copy", "mylib/mystl/uninitialized.h:uninitialized_fill_n", "mylib/mystl/uninitialized.h:uninitialized_move", "mylib/mystl/uninitialized.h:uninitialized_move_n"]}
{"id": "C129", "title": "Vectors when a constructor throws", "statement": "When the constructor of an element throws, vector(n, value), vector(first, last), push_back and assign let the exception reach the caller; a vector that existed before is unchanged; no vector has elements that do not exist. Without exceptions they do what C48 says.", "quantifier": "all vectors, values, memories and all patterns of throwing constructors", "why_tests_cant": "the catch blocks run only when a constructor fails at a chosen moment", "anchors": ["mylib/mystl/vector.h:fill_init", "mylib/mystl/vector.h:range_init", "mylib/mystl/vector.h:push_back", "mylib/mystl/vector.h:reallocate_insert", "mylib/mystl/vector.h:fill_assign"]}
{"id": "C130", "title": "Temporary buffers", "statement": "get_temporary_buffer and temporary_buffer ask for the wanted number of elements, at most INT_MAX / sizeof(T), and halve it until malloc succeeds; a temporary_buffer holds copies of the first element of its range; its destructor destroys them and frees the memory, and does nothing undefined.", "quantifier": "all ranges, limits and patterns of failing malloc", "why_tests_cant": "malloc does not fail in tests", "anchors": ["mylib/mystl/memory.h:get_temporary_buffer", "mylib/mystl/memory.h:temporary_buffer"]}
{"id": "C131", "title": "Ownership by auto_ptr", "statement": "In every program that copies, assigns, resets, releases and drops auto_ptrs no object is deleted twice, an object has at most one owner, and it lives exactly as long as it has one.", "quantifier": "all programs over any number of auto_ptrs, including assignment to itself", "why_tests_cant": "there are infinitely many programs", "anchors": ["mylib/mystl/memory.h:auto_ptr"]}
{"id": "C132", "title": "Quick sunrise and sunset", "statement": "sunShengJ starts at the local mean noon of the day and twice goes to the closest moment at which the upper limb of the Sun, placed as at the moment before, is on the horizon (50 minutes of arc below it for the centre), in the east for sunrise and in the west for sunset; it returns 0 exactly when the Sun so placed stays on one side of that line all day; the result can be told from a moment.", "quantifier": "all moments within 98000 years of 2000, all longitudes and all latitudes except the poles, in exact arithmetic", "why_tests_cant": "the closest crossing is a statement about all moments, and polar day and night depend on latitude and date together", "anchors": ["eph/eph0.cpp:sunShengJ"]}
{"id": "C133", "title": "Contacts of a solar eclipse while the Sun is up", "statement": "secMax keeps a moment of the eclipse if and only if the Sun is up at the place: what it keeps lies between sunrise and sunset of sunShengJ on the day of the greatest phase, and what happens while the Sun is up is kept.", "quantifier": "all motions of Sun and Moon, places and moments, in exact arithmetic", "why_tests_cant": "needs an eclipse under the midnight sun", "anchors": ["eph/eph_rspl.cpp:secMax", "eph/eph0.cpp:sunShengJ"]}
{"id": "C134", "title": "Limits of a solar eclipse on the Earth", "statement": "nbj gives the place where the axis of the shadow first meets the Earth, with its kind from the apparent radii there, and for umbra and penumbra the places where the line from the limb of the Sun, at the point across the apparent motion of the Moon seen from the place of the round before, through the apex of the cone meets it, 100 if there is none; the width of the umbra is the mean radius times the distance of its two limits on the sphere mapped to the plane at their mean latitude.", "quantifier": "all places and motions of Sun and Moon, in exact arithmetic", "why_tests_cant": "tests use a few eclipses, none with a limit on each side of the meridian of 180 degrees", "anchors": ["eph/eph_rspl.cpp:nbj", "eph/eph_rspl.cpp:p2p", "eph/eph_rspl.cpp:pp0", "eph/eph_rspl.cpp:zbXY"]}
{"id": "C135", "title": "Extreme distances, elongations and nodes", "statement": "moonMinR, earthMinR and daJu go from the mean time closest to the given one, three times, to the vertex of the parabola through three values of the distance or elongation, and return the vertex; where these are parabolas near the mean times they return moment and value of the extreme whose mean time is closest. moonNode does so for a latitude that passes zero evenly.", "quantifier": "all moments and all distances and latitudes of that form, in exact arithmetic", "why_tests_cant": "the statement is about all motions and all moments", "anchors": ["eph/eph0.cpp:moonMinR", "eph/eph0.cpp:earthMinR", "eph/eph0.cpp:moonNode", "eph/eph.cpp:daJu"]}
{"id": "C136", "title": "Stations of the planets", "statement": "xingLiu starts at the opposition or inferior conjunction closest to the given moment, by the mean motion, and finds the station on the side asked for; with sn = 1 that is the station where the planet becomes retrograde, with sn = 0 the one where it becomes direct, for all planets.", "quantifier": "all planets and moments, all mean motions and all right ascensions that are parabolas near the mean stations, in exact arithmetic", "why_tests_cant": "tests do not meet a station at right ascension 0, and check times, not the kind of the station", "anchors": ["eph/eph.cpp:xingLiu"]}
{"id": "C137", "title": "Conjunctions and oppositions", "statement": "xingHR finds the conjunction or opposition with the Sun belonging to the mean one closest to the given moment, where the elongation in longitude is 0 or half a turn; xingHY finds the conjunction with the Moon in right ascension.", "quantifier": "all planets, all moments and all elongations that change evenly near the mean conjunction, in exact arithmetic", "why_tests_cant": "the statement is about all motions and all moments", "anchors": ["eph/eph.cpp:xingHR", "eph/eph.cpp:xingHY"]}
{"id": "C138", "title": "Rise, transit and set of the Moon", "statement": "SZJ::Mt takes the lunar day whose mean transit is closest to the given noon and returns its transits, and as rise and set the moments when the Moon's upper limb is on the horizon, in the east before the upper transit and in the west after it, with an error of the second order in how much the motion differs from the mean. The calls of calcRTS for n days reach every rise, set and transit of these days. Where the Moon does not cross the horizon, no rise or set is given.", "quantifier": "all places, moments and motions of the Moon within the stated bounds, in exact arithmetic", "why_tests_cant": "the statement is about all motions and places; high latitudes and lunar days without a noon are easily left out", "anchors": ["eph/eph_szj.cpp:SZJ::Mt", "eph/eph_szj.cpp:SZJ::Mcoord", "eph/eph_szj.cpp:SZJ::getH"]}
{"id": "C139", "title": "Equation of time and local true solar time", "statement": "For a moment jd in UT (days from J2000 noon) and an east longitude J, the time mingLiBaZi uses, jd + pty_zty2 + J/2pi, is local true solar time: if the sky over the place is turned back by that part of a turn, the Sun stands on the upper meridian, within 0.00035 radians (4.8 seconds) plus 0.018|dt| for |jd| <= 73050 and 0.0024 plus 0.018|dt| for |jd| <= 1000000 (dt = TD - UT in days). pty_zty2 itself is at most 0.0175 of a day, so true and mean local time never differ by more than 25.4 minutes.", "quantifier": "all finite doubles jd with |jd| <= 1000000 and J with |J| <= 7, in the program's doubles; every C library within the stated error bounds", "why_tests_cant": "a test can compare with almanac values on some days; that no sign, aberration, half turn or rounding goes wrong on any day for 5000 years needs a bound over all of them", "anchors": ["eph/eph0.cpp:pty_zty2", "lunar/lunar_ob.cpp:OBB::mingLiBaZi"]}
{"id": "C140", "title": "Sun and Moon over a place: MSC::calc", "statement": "MSC::calc(T, L, fa, high) computes for Sun and Moon: the apparent ecliptic place (the Sun's direction is opposite to the Earth's); right ascension and declination, which give the same place turned by the true obliquity; the hour angle, in (-pi, pi], as sidereal time over the place less right ascension; the place as seen from the station on the ellipsoid with height high; azimuth from the south westward in [0, 2pi) and altitude of that place. The apparent altitude differs from it by refraction: at most 29.1 minutes of arc, at least -0.13 seconds, never above the zenith, keeping the order of altitudes; below the horizon none, so that no body is ever shown at an apparent altitude strictly between 0 and 28.5 minutes. The true solar time shown agrees with the Sun's hour angle shown within 0.0014 radians (19.3 seconds of time; 1800 to 2200: 0.24 s) plus 0.0172|dt| radians, up to whole days. For a Moon 300000 to 1000000 km away and bodies within 30 degrees of the equator, the point shown as centre of a solar eclipse is the first point of the Earth's ellipsoid that the axis of the Moon's shadow meets, on the sunlit side, in geodetic coordinates; 100 is shown exactly if the axis misses the Earth. The umbra at the Moon is larger than the Moon and lies inside the penumbra.", "quantifier": "all real T, longitudes, latitudes strictly between the poles, heights; every nutation, coordinate and aberration function passed in; |T| <= 1000000 for the solar time", "why_tests_cant": "a test compares a few moments; that no sign or quadrant is wrong anywhere, that the 50-degree filter before lineEar never loses an eclipse, and that refraction keeps the order are statements about a continuum", "anchors": ["eph/eph_msc.cpp:MSC::calc", "eph/eph0.cpp:MQC", "eph/eph0.cpp:parallax", "eph/eph.cpp:lineEar"]}
{"id": "C141", "title": "Circle and ellipse: the edge of the penumbra on the outline of the Earth (cirOvl)", "statement": "cirOvl(1, ba, r, x0, y0) returns no points or two. The two points are exactly on the circle with radius r around (x0, y0), A anticlockwise and B clockwise of the centre as seen from the origin, and x^2 + y^2/ba^2 differs from 1 by at most 0.00684; if circle and outline do not graze, two points are always returned and the difference is at most 0.0005. Expected beyond that: two points are returned whenever circle and outline meet. False: a penumbra that crosses the outline near the pole without reaching the equatorial radius is reported as not meeting it.", "quantifier": "all real ba in [0.9966, 1], r, and centres other than the origin", "why_tests_cant": "the two passes of the loop share one variable (cosA), so the second point is started from the result of the first; that this is harmless for every position needs an error bound, and the lost crossings lie in a band 0.3% wide that sampling rarely hits", "anchors": ["eph/eph.cpp:cirOvl"]}
{"id": "C142", "title": "The nutation series: short against full, and terms chosen by period", "statement": "nutation2, the ten-term series used everywhere, agrees with the 77-term IAU 2000B series nutation(t, 0) within 0.1801 seconds of arc in longitude and 0.1101 in obliquity for |t| <= 10 centuries. nutation(t, zq) with zq >= 1 keeps only terms whose period is at least zq days (up to the factor 36526/36525 in the code). Expected besides: it keeps every term with a longer period. False: terms whose rate, with the sign of the node turned, is negative are never kept (among them one of 411.8 days), and the periods are computed with the node's rate of the wrong sign, so that zq = 170 drops the half-yearly term of 182.6 days, an error of more than 0.4 seconds at J2000.", "quantifier": "all real |t| <= 10 (all doubles for nutation2, any C library within the stated error bounds); all 77 terms, all positive zq", "why_tests_cant": "agreement at sampled moments does not bound the difference, which is a sum of 77 incommensurable waves; the period filter is never exercised by the program", "anchors": ["eph/eph0.cpp:nutation2", "eph/eph0.cpp:nutation", "eph/eph_data.h:nuTab_DATA"]}
{"id": "C143", "title": "The equation of time of high precision and its yearly table", "statement": "pty_zty(t) is, in turns, the hour angle that the apparent Sun (all terms of the longitude series, aberration, main term of nutation, latitude) has when the sidereal time is the longitude of the mean Sun with the nutation in right ascension: turned back by that angle the Sun stands on the upper meridian within 2.5e-5 rad (1.64e-5 within ten centuries of J2000), and the value is at most 0.0175 of a day. shengjiang3(y) has 368 rows; row i belongs to 12h Beijing time of the day i days after 1 January (to within 0.3 ms), and that moment in UT plus the value of the row is the hour angle of the Sun at the zero meridian: within 2.44e-5 rad for years within a century of J2000 and 0.0015 rad for the whole range, plus 0.01721 rad per day of TD - UT.", "quantifier": "all doubles |t| <= 27.5; all years with noon of 1 January within 999000 days of J2000, all 368 rows; any C library within the stated error bounds", "why_tests_cant": "the claim bounds sums of hundreds of incommensurable waves in rounded arithmetic over millennia; sampled days show only sampled errors", "anchors": ["eph/eph0.cpp:pty_zty", "eph/eph_show.cpp:shengjiang3", "eph/eph0.cpp:llrConv", "eph/eph0.cpp:dt_T"]}
{"id": "C144", "title": "First and last contact of the shadow with the Earth", "statement": "From a moment and the speed of the shadow, qrd moves the moment by t and answers a place. With f = 1/bba^2 - 1 and way = |t| times the speed, the centre of the shadow moved by t times the speed is in both coordinates within 10 f^2 + f way + way^2 of a centre from which the shadow (the axis when fs = 0, the penumbra when fs = 1) touches the outline of the Earth from outside, and the answered longitude and latitude are those of the place of the ellipsoid in the direction of the point of contact. The Earth covers in the fundamental plane exactly an ellipse with the half axes 1 and b, and bba^2 differs from b^2 by at most (1 - cs_ba^2)^2. At the answered place the axis stands at the horizon up to (1/cs_ba^2 - 1)/2 in the sine of the altitude, not exactly.", "quantifier": "all positions of the shadow, all speeds not at right angles to the position, 0 <= f <= 0.01, radii up to 0.6, way up to 0.2; all declinations", "why_tests_cant": "first-order corrections for the flattened Earth are wrong only slightly when their formula is wrong, and no sample of eclipses has an independent answer to compare with", "anchors": ["eph/eph_rsgs.cpp:RS_GS::qrd", "eph/eph_rsgs.cpp:RS_GS::init", "eph/eph_rsgs.cpp:RS_GS::feature", "eph/eph_rsgs.cpp:RS_GS::bse2db"]}
{"id": "C145", "title": "partial_sort_copy answers the smallest elements in order", "statement": "For an input of n elements and a result range of k cells, partial_sort_copy writes min(n,k) elements to the front of the result range, in order, and returns the position behind them. They and the remaining elements of the input are together a rearrangement of the input, and none of the remaining ones is less than a written one. The other cells of the result range and the storage around it keep their values.", "quantifier": "all strict weak orders, all inputs and result ranges of any length, all surrounding storage", "why_tests_cant": "the exchange at the top of the heap goes wrong only for particular orders of arrival, and n < k, k = 0 and equal elements need separate tests", "anchors": ["mylib/mystl/algo.h:partial_sort_copy", "mylib/mystl/algo.h:psort_copy_aux", "mylib/mystl/heap_algo.h:adjust_heap"]}
{"id": "C146", "title": "Copying algorithms write the promised sequence and nothing else", "statement": "transform (both forms), replace_copy, replace_copy_if, remove_copy, remove_copy_if and unique_copy write the image, the changed elements, the kept elements and the first elements of the runs of equal elements of the input as it was before the call, from the result position on, return the position behind the last written cell and change no other cell. This holds when input and output lie apart and also when they overlap and the output starts not behind the input. The versions of unique_copy for forward and for output iterators agree. reverse_copy and partition_copy do the same for ranges that lie apart. for_each calls the function once per element, from front to back, and returns it. generate and generate_n write the values of successive calls of the generator; generate_n writes nothing for n <= 0.", "quantifier": "all elements, functions, predicates and equalities (also ones that are not equivalences), all lengths and positions, all surrounding storage", "why_tests_cant": "overlap, empty ranges and writing one cell too many are seen only with storage around the ranges and each relative position needs its own test", "anchors": ["mylib/mystl/algo.h:transform", "mylib/mystl/algo.h:replace_copy", "mylib/mystl/algo.h:remove_copy_if", "mylib/mystl/algo.h:unique_copy", "mylib/mystl/algo.h:partition_copy", "mylib/mystl/algo.h:reverse_copy", "mylib/mystl/algo.h:generate", "mylib/mystl/algo.h:for_each"]}
{"id": "C147", "title": "Planet, Sun and Moon positions are the apparent geometry", "statement": "For a planet, the Sun or the Moon, the apparent ecliptic, equatorial, topocentric and horizontal coordinates which xingX prints are the coordinates of one vector: the body at the moment the light left it, seen from the Earth, turned by nutation and by the true obliquity, shifted to the station and turned to the horizon; the distances are the lengths of the vectors. The single light time iteration is off by at most the speed of the body over that of light times the light time, and taking the Earth at the earlier moment accounts for aberration to second order. xingLiu0, xingMP and xingSP return the coordinates and the differences of longitude, right ascension, latitude and declination of the same vectors, and xingJJ the angle between the directions to the planet and to the Sun. A number that names no body is refused.", "quantifier": "all ephemerides of planets, Moon and Earth, all nutation and sidereal time functions, all times, stations and bodies whose direction is not along the pole of the ecliptic", "why_tests_cant": "the numbers agree with the tables for every body looked at whichever vector is used for the light time, and wrong quadrants show only for some directions", "anchors": ["eph/eph.cpp:xingX", "eph/eph.cpp:xingJJ", "eph/eph.cpp:xingLiu0", "eph/eph.cpp:xingMP", "eph/eph.cpp:xingSP"]}
{"id": "C148", "title": "Texts are read as numbers in any base, with the position behind them", "statement": "stol, stoll, stoul and stoull return the value of the number in the text: behind blanks, a sign and, for base 16 or 0, the mark 0x, the longest run of digits in the base; base 0 means 8 after a leading 0 and 10 otherwise. The position is that behind the last digit. A number outside the type throws out_of_range, a text without a number invalid_argument, and nothing else throws; earlier calls have no influence. The unsigned ones take a negative number modulo 2^w. Texts of to_str are read back as the same integer. my_stoi returns the value of stol cut to 32 bits.", "quantifier": "all texts, bases 0 and 2 to 36, long of 32 and 64 bits (any width for the value), any state of errno", "why_tests_cant": "texts, bases and positions cannot be enumerated, and the influence of earlier calls shows only after a range error", "anchors": ["mylib/mystl/my_string.h:stol", "mylib/mystl/my_string.h:stoll", "mylib/mystl/my_string.h:stoul", "mylib/mystl/my_string.h:stoull", "mylib/mystl/my_string.h:my_stoi"]}
{"id": "C149", "title": "The printed times of rising and setting are those computed, in the time of Beijing", "statement": "shengjiang asks for the Sun and the Moon at noon, in the mean time of the place, of the given day and prints every moment of the answer with date and clock in the time of Beijing to half a second, in the line of its name, the lengths of day and of twilight as hours, minutes and seconds, and the remark when there is one. shengjiang2 prints, for 368 days from 1 January of the year on, date and time of sunrise and the time of sunset.", "quantifier": "all answers of the rising and setting functions within 2000000 days of J2000, all stations and days in that range", "why_tests_cant": "exchanged members, wrong zones and columns cut at the wrong place show only for particular times and years", "anchors": ["eph/eph_show.cpp:shengjiang", "eph/eph_show.cpp:shengjiang2", "mylib/tool.cpp:JD2str", "mylib/tool.cpp:timeStr"]}
{"id": "C150", "title": "The eclipse on the screen follows the keys", "statement": "rs2_calc keeps the new moon it shows from call to call. Whatever was asked before, fs = 1 shows the new moon of the given day, fs = 2 the same again, fs = 3 and fs = 4 the one m months before or after when the step is m months, fs = 5 the hundred new moons from there on, one after the other, and fs = 0 shows nothing and changes nothing. Each call prints date and time of a moment within five days of that mean new moon.", "quantifier": "all sequences of calls with steps within 4 days (table: 0.02 day) of a whole number of months, new moons of about the years -993 to 4993", "why_tests_cant": "the static variable makes each answer depend on all calls before; a drift of the step shows only after long sequences", "anchors": ["eph/eph_show.cpp:rs2_calc", "eph/eph_show.h:SYZYGY"]}
{"id": "C151", "title": "Hashes agree with equality and tell single bytes apart", "statement": "mystl::hash gives equal hashes to doubles that compare equal, the two zeros included; for any other double it is the hash of the eight bytes of its IEEE 754 word. Byte rows that differ in one byte have different hashes. Different integers of one type have different hashes. Every hash fits in size_t.", "quantifier": "all doubles, all byte rows, all integer types of at most 64 bits", "why_tests_cant": "a collision or a disagreement of hash and equality shows only for the keys concerned", "anchors": ["mylib/mystl/functional.h:bitwise_hash", "mylib/mystl/functional.h:hash"]}
{"id": "C152", "title": "Pairs are compared like words", "statement": "operator< of mystl::pair orders by the first members and by the second ones when those are equal; it is a total order when the members have one, and the other five operators agree with it.", "quantifier": "all pairs of members with a total order and its equality", "why_tests_cant": "a comparison that breaks the order corrupts containers only for particular sets of keys", "anchors": ["mylib/mystl/util.h:operator==", "mylib/mystl/util.h:operator<"]}
{"id": "C153", "title": "The timetable of an eclipse shows each contact at its time", "statement": "rysCalc gives the tables of a solar eclipse within 3 degrees of conjunction, those of a lunar eclipse within 10 degrees of opposition, and never both. Each timetable has one line for every contact whose time is not zero, in order, with its name, date and time to half a second in the time asked for. A time given in local time and made Dynamical Time comes back as it was. Each limit has a line with its degrees, or none.", "quantifier": "all contact times within 2000000 days of J2000, all functions dt_T with values of at most 100 days, all elongations", "why_tests_cant": "exchanged names and wrong signs of the shift show only for eclipses of one kind or for one time scale", "anchors": ["eph/eph_show.cpp:rysCalc", "mylib/tool.cpp:JD2str"]}
{"id": "C154", "title": "The table of the equation of time shows each day with its date, minutes and seconds", "statement": "shengjiang3 gives its heading and 368 rows. Row i has the civil date of the day i days after 1 January of the year, and the equation of time of that day's noon in Beijing as sign, whole minutes and seconds under 60, which add up to 86400 times the number of days to 1e-8 second.", "quantifier": "all years from -4716 to 5000 within 999000 days of J2000, all library functions as accurate as C143 asks", "why_tests_cant": "a date that is wrong on one day of a leap year or of October 1582, or minutes and seconds that do not add up near a full minute, show in a few of the rows of a few years", "anchors": ["eph/eph_show.cpp:shengjiang3", "mylib/tool.cpp:m2fm", "mylib/tool.cpp:JD2str"]}
{"id": "C155", "title": "The text of the places of Sun and Moon shows each number under its label", "statement": "MSC::toStr always gives a text. Under each label it has the value of the Moon, then that of the Sun: angles with sign, degrees or hours, minutes below 60 and seconds right to half a hundredth, radii and the equation of time as minutes and seconds below 60 that add up, solar times to half a second, nutation in seconds of arc, the lit part in percent. The lines of Dynamical Time, nutation and obliquity are there exactly if asked for.", "quantifier": "all finite members: angles of at most 17 radians, moments of at most 2000000 days from J2000 (solar times 4000000), equation of time and lit part of at most 1, nutation of at most 1 radian", "why_tests_cant": "exchanged members of Sun and Moon give plausible texts; carries into full minutes show for few values", "anchors": ["eph/eph_msc.cpp:MSC::toStr", "mylib/tool.cpp:rad2str", "mylib/tool.cpp:m2fm"]}
{"id": "C156", "title": "The overview of a solar eclipse shows each point with its moment and place", "statement": "rs2_calc gives for one eclipse the begin and end of the partial and of the central eclipse and the eclipse at noon, in the order of time, each with its own moment to half a second and its longitude and latitude to half a minute of arc, and under the next heading the numbers of the center, each under its label. The line of noon is there exactly if the axis meets the Earth then. The lines of the central eclipse are there only if it is central.", "quantifier": "all features with finite members: angles of at most 17 radians, moments within 2000000 days of J2000, durations of at most 1000 days", "why_tests_cant": "exchanged points give plausible texts, and the lines of a missing central eclipse show only for partial eclipses", "anchors": ["eph/eph_show.cpp:rs2_calc", "mylib/tool.cpp:rad2str2", "eph/eph_rsgs.cpp:RS_GS::feature"]}
{"id": "C157", "title": "The table of limits of a solar eclipse has a row for every minute with a limit", "statement": "RS_GS::jieX3 gives its heading and then, for each of the 360 minutes from three hours before the minute of the middle of the eclipse on, a row exactly if at least one of the five limits exists then. The row has the moment, right to a hundredth of a second before it is rounded to a second although the minutes are added up in doubles, and the five limits in the order of the heading, each with longitude and latitude to half a minute of arc or with dashes if it does not exist.", "quantifier": "all moments within 1999990 days of J2000, all limits with coordinates of at most 17 radians or the mark 100", "why_tests_cant": "a sum of 360 rounded steps drifts differently for each start; limits in the wrong column show only for eclipses where some of them are missing", "anchors": ["eph/eph_rsgs.cpp:RS_GS::jieX3", "mylib/tool.cpp:rad2str2", "mylib/tool.cpp:JD2str"]}
{"id": "C158", "title": "The text of the place of a body shows each number under its label", "statement": "xingX gives for a planet, the Sun or the Moon a text in which every coordinate stands under its own label: right ascensions and sidereal times in hours, all other angles in degrees, with minutes and seconds right to half a hundredth, distances with 8 decimals, for the Moon with 2. The line of the heliocentric place is there exactly for the bodies other than the Moon. For a number that names no body no uninitialised number is printed.", "quantifier": "all numbers of bodies, all finite numbers to show with angles of at most 17 radians", "why_tests_cant": "an angle in the wrong unit or under the wrong label is a plausible text", "anchors": ["eph/eph.cpp:xingX", "mylib/tool.cpp:rad2str"]}
{"id": "C159", "title": "The radii, distances, duration and magnitude shown for an eclipse are those of the discs", "statement": "The first lines of rysCalc show under their labels, as sign, whole minutes of arc and the seconds left with 2 decimals, for a solar eclipse the radii of Sun and Moon, the distance of their centers, the sum and the difference of the radii and the distance less the sum; for a lunar eclipse the radii of umbra, penumbra and Moon, the distance of the centers, the sum of the radii of Moon and umbra, and the distance less the sum of the radii of the Moon and umbra, and of the Moon and penumbra. The place of the axis of the shadow is shown in degrees with 5 decimals; if the axis misses the Earth, the text says so. The lines after the timetable show for a solar eclipse the duration in minutes and seconds, the magnitude and the ratio of the radii, for a lunar eclipse the magnitude, each under its label.", "quantifier": "all finite radii and distances of at most 1000000 seconds of arc, all places of the axis of at most 17 radians or marked as missing, all durations of at most a day, all finite magnitudes and ratios", "why_tests_cant": "a difference taken of the wrong radii shows contact at a wrong moment", "anchors": ["eph/eph_show.cpp:rysCalc", "mylib/tool.cpp:m2fm"]}
