#!/usr/bin/env python3
"""Translates the unit tests of the C++ project into checks of the Rocq model.

Reads /repo/test/test_*.cpp and testdata_real.cpp as text and writes rocq/theories/Tests_*.v.
Every translated TEST(...) becomes a term that runs its statements against the model in order and
yields the source line of the first expectation that does not hold (None when all hold).
A TEST using a construct this script does not know is cut short before that statement."""
import re, sys, os, glob

OUT = sys.argv[1] if len(sys.argv) > 1 else '/verif/rocq/theories'
TESTS = '/repo/test'

class Skip(Exception):
    pass

# (class, enum) -> (coq type, prefix, exceptions)
ENUMS = {
 ('Runway','Designator'):('RwDesignator','Rw_',{}),
 ('Speed','Unit'):('SpeedUnit','',{}),
 ('Temperature','Unit'):('TempUnit','Temp_',{}),
 ('Distance','Unit'):('DistUnit','',{}),
 ('Distance','Modifier'):('DistModifier','DM_',{}),
 ('Distance','MilesFraction'):('MilesFraction','',{'NONE':'F_NONE'}),
 ('Direction','Type'):('DirType','DT_',{}),
 ('Direction','Cardinal'):('Cardinal','Cd_',{}),
 ('Pressure','Unit'):('PressureUnit','',{}),
 ('Precipitation','Unit'):('PrecipUnit','',{}),
 ('SurfaceFriction','Type'):('SfType','Sf_',{}),
 ('SurfaceFriction','BrakingAction'):('BrakingAction','BA_',{}),
 ('WaveHeight','Type'):('WhType','Wh_',{}),
 ('WaveHeight','Unit'):('WhUnit','Wh_',{}),
 ('WaveHeight','StateOfSurface'):('StateOfSurface','SS_',{}),
 ('WeatherPhenomena','Qualifier'):('WpQualifier','Q_',{}),
 ('WeatherPhenomena','Descriptor'):('WpDescriptor','D_',{}),
 ('WeatherPhenomena','Weather'):('WpWeather','W_',{}),
 ('WeatherPhenomena','Event'):('WpEvent','Ev_',{}),
 ('CloudType','Type'):('CtType','Ct_',{}),
 ('KeywordGroup','Type'):('KwType','Kw_',{}),
 ('TrendGroup','Type'):('TrType','Tr_',{}),
 ('TrendGroup','Probability'):('TrProb','Pr_',{'PROB_30':'Pr_30','PROB_40':'Pr_40'}),
 ('WindGroup','Type'):('WiType','Wi_',{}),
 ('VisibilityGroup','Type'):('ViType','Vi_',{}),
 ('VisibilityGroup','Trend'):('ViTrend','Vt_',{}),
 ('CloudGroup','Type'):('ClType','Cl_',{}),
 ('CloudGroup','Amount'):('ClAmount','Am_',{}),
 ('CloudGroup','ConvectiveType'):('ClConv','Cv_',{}),
 ('WeatherGroup','Type'):('WxType','Wx_',{}),
 ('TemperatureGroup','Type'):('TgType','Tg_',{}),
 ('PressureGroup','Type'):('PgType','Pg_',{}),
 ('RunwayStateGroup','Type'):('RsType','Rs_',{}),
 ('RunwayStateGroup','Deposits'):('RsDeposits','De_',{}),
 ('RunwayStateGroup','Extent'):('RsExtent','Ex_',{}),
 ('MinMaxTemperatureGroup','Type'):('MmType','Mm_',{}),
 ('PrecipitationGroup','Type'):('PcType','Pc_',{}),
 ('LayerForecastGroup','Type'):('LfType','Lf_',{}),
 ('PressureTendencyGroup','Type'):('PtType','Pt_',{}),
 ('PressureTendencyGroup','Trend'):('PtTrend','Ptt_',{}),
 ('LowMidHighCloudGroup','LowLayer'):('LowLayer','Lo_',{}),
 ('LowMidHighCloudGroup','MidLayer'):('MidLayer','Mi_',{}),
 ('LowMidHighCloudGroup','HighLayer'):('HighLayer','Hi_',{}),
 ('LightningGroup','Frequency'):('LtFreq','Lt_',{}),
 ('VicinityGroup','Type'):('VcType','Vc_',{}),
 ('MiscGroup','Type'):('MsType','Ms_',{}),
 ('','ReportPart'):('ReportPart','RP_',{}),
 ('','ReportType'):('ReportType','RT_',{}),
 ('','ReportError'):('ReportError','RE_',{}),
 ('','SyntaxGroup'):('SyntaxGroup','SG_',{}),
 ('','AppendResult'):('AppendResult','',{}),
}
GROUPS = ['Keyword','Location','ReportTime','Trend','Wind','Visibility','Cloud','Weather',
 'Temperature','Pressure','RunwayState','SeaSurface','MinMaxTemperature','Precipitation',
 'LayerForecast','PressureTendency','CloudTypes','LowMidHighCloud','Lightning','Vicinity','Misc','Unknown']
GCLASS = {g+'Group': g for g in GROUPS}

def E(t): return ('enum', t)
def O(t): return ('opt', t)
def V(t): return ('vec', t)
# (class, method) -> (coq function, result type, in res monad?)
M = {}
def m(cls, meth, coq, ty, res=False): M[(cls, meth)] = (coq, ty, res)
m('Runway','number','rNumber','N'); m('Runway','designator','rDesignator',E('RwDesignator'))
m('Runway','isValid','Runway_isValid','bool'); m('Runway','isAllRunways','Runway_isAllRunways','bool')
m('Runway','isMessageRepetition','Runway_isMessageRepetition','bool')
m('MetafTime','day','dayValue',O('N')); m('MetafTime','hour','hourValue','N'); m('MetafTime','minute','minuteValue','N')
m('MetafTime','isValid','MetafTime_isValid','bool')
m('MetafTime','is3hourlyReportTime','MetafTime_is3hourlyReportTime','bool')
m('MetafTime','is6hourlyReportTime','MetafTime_is6hourlyReportTime','bool')
m('Speed','speed','speedValue',O('N')); m('Speed','unit','speedUnit',E('SpeedUnit')); m('Speed','isReported','Speed_isReported','bool')
m('Temperature','temperature','Temperature_temperature',O('flt'))
m('Temperature','isFreezing','freezing','bool'); m('Temperature','isPrecise','precise','bool')
m('Temperature','isReported','Temperature_isReported','bool')
m('Distance','distance','Distance_distance',O('flt')); m('Distance','unit','distUnit',E('DistUnit'))
m('Distance','modifier','distModifier',E('DistModifier')); m('Distance','isReported','Distance_isReported','bool')
m('Distance','isValue','Distance_isValue','bool'); m('Distance','miles','Distance_miles',O(('pair','N',E('MilesFraction'))),True)
m('Direction','type','dirType',E('DirType')); m('Direction','degrees','Direction_degrees',O('N'))
m('Direction','isValue','Direction_isValue','bool'); m('Direction','isReported','Direction_isReported','bool'); m('Direction','isValid','Direction_isValid','bool')
m('Pressure','pressure','pressureValue',O('flt')); m('Pressure','unit','pressureUnit',E('PressureUnit')); m('Pressure','isReported','Pressure_isReported','bool')
m('Precipitation','amount','precipValue',O('flt')); m('Precipitation','unit','precipUnit',E('PrecipUnit')); m('Precipitation','isReported','Precipitation_isReported','bool')
m('SurfaceFriction','type','sfType',E('SfType')); m('SurfaceFriction','coefficient','SurfaceFriction_coefficient',O('flt'))
m('SurfaceFriction','isReported','SurfaceFriction_isReported','bool'); m('SurfaceFriction','isUnreliable','SurfaceFriction_isUnreliable','bool')
m('SurfaceFriction','brakingAction','SurfaceFriction_brakingAction',E('BrakingAction'))
m('WaveHeight','type','whType',E('WhType')); m('WaveHeight','waveHeight','WaveHeight_waveHeight',O('flt'))
m('WaveHeight','stateOfSurface','WaveHeight_stateOfSurface',E('StateOfSurface')); m('WaveHeight','isReported','WaveHeight_isReported','bool')
m('WeatherPhenomena','qualifier','Wp_qualifier',E('WpQualifier')); m('WeatherPhenomena','descriptor','Wp_descriptor',E('WpDescriptor'))
m('WeatherPhenomena','weather','Wp_weather',V(E('WpWeather'))); m('WeatherPhenomena','event','Wp_event',E('WpEvent'))
m('WeatherPhenomena','time','wpTm',O('MetafTime')); m('WeatherPhenomena','isValid','Wp_isValid','bool',True)
m('CloudType','type','ctTp',E('CtType')); m('CloudType','height','ctHt','Distance'); m('CloudType','okta','ctOkt','N'); m('CloudType','isValid','CloudType_isValid','bool')
m('KeywordGroup','type','kw_t',E('KwType'))
m('LocationGroup','toString','LocationGroup_toString','string')
m('ReportTimeGroup','time','rt_t','MetafTime')
m('TrendGroup','type','tr_t',E('TrType')); m('TrendGroup','probability','tr_prob',E('TrProb'))
m('TrendGroup','timeFrom','tr_from',O('MetafTime')); m('TrendGroup','timeUntil','tr_till',O('MetafTime')); m('TrendGroup','timeAt','tr_at',O('MetafTime'))
m('TrendGroup','isTimeSpanGroup','Trend_isTimeSpanGroup','bool')
for a,b,c in [('type','wi_type',E('WiType')),('direction','wi_dir','Direction'),('windSpeed','wi_speed','Speed'),('gustSpeed','wi_gust','Speed'),('height','wi_height','Distance'),('varSectorBegin','wi_vsecBegin','Direction'),('varSectorEnd','wi_vsecEnd','Direction'),('eventTime','wi_evTime',O('MetafTime')),('runway','wi_rw',O('Runway'))]: m('WindGroup',a,b,c)
for a,b,c in [('type','vi_type',E('ViType')),('visibility','VisibilityGroup_visibility','Distance'),('minVisibility','VisibilityGroup_minVisibility','Distance'),('maxVisibility','VisibilityGroup_maxVisibility','Distance'),('direction','vi_dir',O('Direction')),('runway','vi_rw',O('Runway')),('trend','vi_trend',E('ViTrend'))]: m('VisibilityGroup',a,b,c)
m('VisibilityGroup','sectorDirections','VisibilityGroup_sectorDirections',V('Direction'),True)
for a,b,c in [('type','cl_tp',E('ClType')),('amount','cl_amnt',E('ClAmount')),('convectiveType','cl_conv',E('ClConv')),('height','CloudGroup_height','Distance'),('minHeight','CloudGroup_minHeight','Distance'),('maxHeight','CloudGroup_maxHeight','Distance'),('verticalVisibility','CloudGroup_verticalVisibility','Distance'),('cloudType','CloudGroup_cloudType',O('CloudType')),('runway','cl_rw',O('Runway')),('direction','cl_dir',O('Direction'))]: m('CloudGroup',a,b,c)
m('WeatherGroup','type','wx_t',E('WxType')); m('WeatherGroup','weatherPhenomena','WeatherGroup_weatherPhenomena',V('WeatherPhenomena'))
for a,b,c in [('type','tg_tp',E('TgType')),('airTemperature','tg_t','Temperature'),('dewPoint','tg_dp','Temperature')]: m('TemperatureGroup',a,b,c)
for a,b,c in [('type','pg_t',E('PgType')),('atmosphericPressure','pg_p','Pressure')]: m('PressureGroup',a,b,c)
for a,b,c in [('runway','rs_rw','Runway'),('type','rs_tp',E('RsType')),('deposits','rs_dp',E('RsDeposits')),('contaminationExtent','rs_ext',E('RsExtent')),('depositDepth','rs_dDepth','Precipitation'),('surfaceFriction','rs_sf','SurfaceFriction')]: m('RunwayStateGroup',a,b,c)
for a,b,c in [('surfaceTemperature','ss_t','Temperature'),('waves','ss_wh','WaveHeight')]: m('SeaSurfaceGroup',a,b,c)
for a,b,c in [('type','mm_t',E('MmType')),('minimum','mm_minTemp','Temperature'),('maximum','mm_maxTemp','Temperature'),('minimumTime','mm_minTime',O('MetafTime')),('maximumTime','mm_maxTime',O('MetafTime'))]: m('MinMaxTemperatureGroup',a,b,c)
for a,b,c in [('type','pc_type',E('PcType')),('total','pc_amount','Precipitation'),('recent','pc_change','Precipitation')]: m('PrecipitationGroup',a,b,c)
for a,b,c in [('type','lf_type',E('LfType')),('baseHeight','lf_base','Distance'),('topHeight','lf_top','Distance')]: m('LayerForecastGroup',a,b,c)
for a,b,c in [('type','pt_type',E('PtType')),('difference','pt_difference','Pressure')]: m('PressureTendencyGroup',a,b,c)
m('CloudTypesGroup','cloudTypes','CloudTypesGroup_cloudTypes',V('CloudType'))
for a,b,c in [('lowLayer','lmh_low',E('LowLayer')),('midLayer','lmh_mid',E('MidLayer')),('highLayer','lmh_high',E('HighLayer'))]: m('LowMidHighCloudGroup',a,b,c)
for a,b,c in [('frequency','lt_freq',E('LtFreq')),('distance','lt_dist','Distance'),('isCloudGround','lt_cloudGround','bool'),('isInCloud','lt_inCloud','bool'),('isCloudCloud','lt_cloudCloud','bool'),('isCloudAir','lt_cloudAir','bool'),('isUnknownType','lt_unknown','bool')]: m('LightningGroup',a,b,c)
m('LightningGroup','directions','LightningGroup_directions',V('Direction'),True)
for a,b,c in [('type','vc_t',E('VcType')),('distance','vc_dist','Distance'),('movingDirection','vc_movDir','Direction')]: m('VicinityGroup',a,b,c)
m('VicinityGroup','directions','VicinityGroup_directions',V('Direction'),True)
m('MiscGroup','type','ms_type',E('MsType')); m('MiscGroup','data','ms_data',O('flt'))
for g in GCLASS: m(g,'isValid',g+'_isValid','bool', g=='WeatherGroup')
m('Group','index','(fun g => N.of_nat (Group_index g))','N')
# toUnit: one argument
TOUNIT = {'Speed','Temperature','Distance','Pressure','Precipitation','WaveHeight'}
# struct fields
F = {('ParseResult','reportMetadata'):('pr_metadata','ReportMetadata'),('ParseResult','groups'):('pr_groups',V('GroupInfo')),
 ('GroupInfo','group'):('gi_group','Group'),('GroupInfo','reportPart'):('gi_reportPart',E('ReportPart')),('GroupInfo','rawString'):('gi_rawString','string'),
 ('Date','year'):('date_year','N'),('Date','month'):('date_month','N'),('Date','day'):('date_day','N')}
for f,t in [('type',E('ReportType')),('error',E('ReportError')),('reportTime',O('MetafTime')),('icaoLocation','string'),('isSpeci','bool'),('isNospeci','bool'),('isAutomated','bool'),('isAo1','bool'),('isAo1a','bool'),('isAo2','bool'),('isAo2a','bool'),('isNil','bool'),('isCancelled','bool'),('isAmended','bool'),('isCorrectional','bool'),('correctionNumber',O('N')),('maintenanceIndicator','bool'),('timeSpanFrom',O('MetafTime')),('timeSpanUntil',O('MetafTime'))]:
    F[('ReportMetadata',f)] = ('md_'+f,t)
# static functions: (class, name) -> (coq, [arg types], defaults, result type, res?)
S = {
 ('Runway','fromString'):('Runway_fromString',['string','bool'],{1:'false'},O('Runway'),True),
 ('Runway','makeAllRunways'):('Runway_makeAllRunways',[],{},'Runway',False),
 ('MetafTime','fromStringDDHHMM'):('MetafTime_fromStringDDHHMM',['string'],{},O('MetafTime'),True),
 ('MetafTime','fromStringDDHH'):('MetafTime_fromStringDDHH',['string'],{},O('MetafTime'),True),
 ('Speed','fromString'):('Speed_fromString',['string',E('SpeedUnit')],{},O('Speed'),True),
 ('Speed','unitFromString'):('Speed_unitFromString',['string'],{},O(E('SpeedUnit')),False),
 ('Temperature','fromString'):('Temperature_fromString',['string'],{},O('Temperature'),True),
 ('Temperature','fromRemarkString'):('Temperature_fromRemarkString',['string'],{},O('Temperature'),True),
 ('Distance','fromMeterString'):('Distance_fromMeterString',['string'],{},O('Distance'),True),
 ('Distance','fromMileString'):('Distance_fromMileString',['string','bool'],{1:'false'},O('Distance'),True),
 ('Distance','fromHeightString'):('Distance_fromHeightString',['string'],{},O('Distance'),True),
 ('Distance','fromRvrString'):('Distance_fromRvrString',['string','bool'],{},O('Distance'),True),
 ('Distance','fromLayerString'):('Distance_fromLayerString',['string'],{},O(('pair','Distance','Distance')),True),
 ('Distance','fromKmString'):('Distance_fromKmString',['string'],{},O('Distance'),True),
 ('Distance','fromIntegerAndFraction'):('Distance_fromIntegerAndFraction',['Distance','Distance'],{},O('Distance'),True),
 ('Distance','cavokVisibility'):('Distance_cavokVisibility',['bool'],{0:'false'},'Distance',False),
 ('Distance','makeDistant'):('Distance_makeDistant',[],{},'Distance',False),
 ('Distance','makeVicinity'):('Distance_makeVicinity',[],{},'Distance',False),
 ('Direction','fromCardinalString'):('Direction_fromCardinalString',['string','bool','bool'],{1:'false',2:'false'},O('Direction'),False),
 ('Direction','fromDegreesString'):('Direction_fromDegreesString',['string'],{},O('Direction'),True),
 ('Direction','fromSectorString'):('Direction_fromSectorString',['string'],{},O(('pair','Direction','Direction')),False),
 ('Direction','rotateOctantClockwise'):('Direction_rotateOctantClockwise',[E('Cardinal')],{},E('Cardinal'),False),
 ('Direction','sectorCardinalDirToVector'):('Direction_sectorCardinalDirToVector',['Direction','Direction'],{},V('Direction'),True),
 ('Pressure','fromString'):('Pressure_fromString',['string'],{},O('Pressure'),True),
 ('Pressure','fromForecastString'):('Pressure_fromForecastString',['string'],{},O('Pressure'),True),
 ('Pressure','fromSlpString'):('Pressure_fromSlpString',['string'],{},O('Pressure'),True),
 ('Pressure','fromQfeString'):('Pressure_fromQfeString',['string'],{},O('Pressure'),True),
 ('Pressure','fromTendencyString'):('Pressure_fromTendencyString',['string'],{},O('Pressure'),True),
 ('Precipitation','fromRainfallString'):('Precipitation_fromRainfallString',['string'],{},O('Precipitation'),True),
 ('Precipitation','fromRunwayDeposits'):('Precipitation_fromRunwayDeposits',['string'],{},O('Precipitation'),True),
 ('Precipitation','fromRemarkString'):('Precipitation_fromRemarkString',['string','flt',E('PrecipUnit'),'bool'],{1:'(to32 (dlit 1 1))',2:'INCHES',3:'false'},O('Precipitation'),True),
 ('SurfaceFriction','fromString'):('SurfaceFriction_fromString',['string'],{},O('SurfaceFriction'),True),
 ('WaveHeight','fromString'):('WaveHeight_fromString',['string'],{},O('WaveHeight'),True),
 ('WeatherPhenomena','fromString'):('Wp_fromString',['string','bool'],{1:'false'},O('WeatherPhenomena'),True),
 ('WeatherPhenomena','fromWeatherBeginEndString'):('Wp_fromWeatherBeginEndString',['string','MetafTime','WeatherPhenomena'],{},O('WeatherPhenomena'),True),
 ('CloudType','fromString'):('CloudType_fromString',['string'],{},O('CloudType'),True),
 ('CloudType','fromStringObscuration'):('CloudType_fromStringObscuration',['string'],{},O('CloudType'),False),
 ('PressureTendencyGroup','trend'):('PressureTendency_trend',[E('PtType')],{},E('PtTrend'),False),
 ('GroupParser','parse'):('GroupParser_parse',['string',E('ReportPart'),'ReportMetadata'],{},'Group',True),
 ('GroupParser','reparse'):('GroupParser_reparse',['string',E('ReportPart'),'ReportMetadata','Group'],{},'Group',True),
 ('Parser','parse'):('(parse true)',['string','nat'],{1:'200%nat'},'ParseResult',True),
 ('','strToUint'):('strToUint',['string','nat','nat'],{},O('N'),True),
 ('','fractionStrToUint'):('fractionStrToUint',['string','nat','nat'],{},O(('pair','N','N')),True),
 ('','getSyntaxGroup'):('getSyntaxGroup',['Group'],{},E('SyntaxGroup'),False),
}
for g in GCLASS:
    S[(g,'parse')] = (g+'_parse',['string',E('ReportPart'),'ReportMetadata'],{2:'md_default'},O(g),True)
CLASSES = {c for c,_ in S} | {c for c,_ in M} | {c for c,_ in ENUMS if c}
# helper predicates of test_parser.cpp
HELPERS = {'isUnknown':'GUnknown','isKeywordGroup':'GKeyword','isLocation':'GLocation','isReportTime':'GReportTime','isTrend':'GTrend','isWind':'GWind','isVisibility':'GVisibility','isCloud':'GCloud','isWeather':'GWeather','isTemperature':'GTemperature','isMinMaxTemp':'GMinMaxTemperature','isPressure':'GPressure','isVicinity':'GVicinity'}
KWH = {'isMetar':'Kw_METAR','isSpeci':'Kw_SPECI','isTaf':'Kw_TAF','isAmd':'Kw_AMD','isNil':'Kw_NIL','isCnl':'Kw_CNL','isCor':'Kw_COR','isRmk':'Kw_RMK','isMaintenanceIndicator':'Kw_MAINTENANCE_INDICATOR'}

TOK = re.compile(r'''\s*(?:
  (?P<str>"(?:\\.|[^"\\])*"s?)
 |(?P<num>\d+\.?\d*(?:[eE]-?\d+)?[uUfF]?)
 |(?P<id>[A-Za-z_]\w*)
 |(?P<op>->|::|==|!=|<=|>=|&&|\|\||[-+*/<>!(){}\[\],.;=&?:%])
)''', re.X)

def lex(s):
    s = re.sub(r'"(?:\\.|[^"\\\n])*"|//[^\n]*', lambda k: k.group() if k.group()[0]=='"' else ' '*len(k.group()), s)
    pos, out = 0, []
    while pos < len(s):
        if s[pos].isspace(): pos += 1; continue
        k = TOK.match(s, pos)
        if not k: raise Skip('lex %r' % s[pos:pos+20])
        out.append((k.lastgroup, k.group(k.lastgroup)))
        pos = k.end()
    return out

def coqstr(s):
    return '"' + s.replace('"','""') + '"'

class Tr:
    """One TEST body. Expression translation returns (coq term, type); effects go to self.binds."""
    def __init__(self, glob):
        self.env = dict(glob); self.n = 0; self.binds = []
        self.consts = {}
    def fresh(self):
        self.n += 1; return 'v%d' % self.n
    def res(self, term):
        v = self.fresh(); self.binds.append((v, term)); return v
    # --- parsing
    def parse(self, toks):
        self.t = toks; self.i = 0
        e = self.expr()
        if self.i != len(self.t): raise Skip('trailing %r' % (self.t[self.i:],))
        return e
    def peek(self, k=0):
        return self.t[self.i+k] if self.i+k < len(self.t) else ('eof','')
    def eat(self, v):
        if self.peek()[1] != v: raise Skip('expected %s got %r' % (v, self.peek()))
        self.i += 1
    def expr(self):
        a = self.add()
        while self.peek()[1] in ('==','!=','&&','||','<','>','<=','>='):
            op = self.peek()[1]; self.i += 1
            b = self.add()
            if op == '&&': a = ('(%s && %s)' % (a[0],b[0]), 'bool')
            elif op == '||': a = ('(%s || %s)' % (a[0],b[0]), 'bool')
            elif op in ('==','!='):
                t = self.eq(a,b); a = (t if op=='==' else '(negb %s)' % t, 'bool')
            else: raise Skip('op '+op)
        return a
    def add(self):
        a = self.mul()
        while self.peek()[1] in ('+','-'):
            op = self.peek()[1]; self.i += 1
            b = self.mul()
            if a[1]=='string' and b[1]=='string' and op=='+': a = ('(%s ++ %s)%%string' % (a[0],b[0]),'string')
            elif a[1]=='lit' and b[1]=='lit': a = (eval('a[0]%sb[0]'%op),'lit')
            else: raise Skip('add')
        return a
    def mul(self):
        a = self.unary()
        while self.peek()[1] in ('*','/'):
            op = self.peek()[1]; self.i += 1
            b = self.unary()
            if a[1]=='lit' and b[1]=='lit':
                from fractions import Fraction
                x,y = Fraction(str(a[0])) if not isinstance(a[0],Fraction) else a[0], Fraction(str(b[0])) if not isinstance(b[0],Fraction) else b[0]
                a = (x*y if op=='*' else x/y,'lit')
            else: raise Skip('mul')
        return a
    def unary(self):
        k,v = self.peek()
        if v == '!':
            self.i += 1; a = self.unary()
            if a[1][0]=='opt': return ('(negb (has_value %s))' % a[0],'bool')
            return ('(negb %s)' % a[0],'bool')
        if v == '-':
            self.i += 1; a = self.unary()
            if a[1]!='lit': raise Skip('neg')
            return (-a[0],'lit')
        if v == '*':
            self.i += 1; a = self.unary()
            return self.deref(a)
        if v == '&': raise Skip('&')
        return self.postfix()
    def deref(self, a):
        if a[1][0] != 'opt': raise Skip('deref %r' % (a[1],))
        return (self.res('deref %s' % a[0]), a[1][1])
    def args(self):
        self.eat('('); out = []
        if self.peek()[1] == ')': self.i += 1; return out
        while True:
            out.append(self.expr())
            if self.peek()[1] == ',': self.i += 1; continue
            self.eat(')'); return out
    def coerce(self, a, ty):
        t, s = a
        if ty == s: return t
        if ty == 'Group' and s in GCLASS: return '(G%s %s)' % (GCLASS[s], t)
        if s == 'lit':
            from fractions import Fraction
            x = Fraction(str(t)) if not isinstance(t, Fraction) else t
            if ty == 'N' and x.denominator==1: return '%d%%N' % x if x>=0 else self.bad('neg')
            if ty == 'nat' and x.denominator==1: return '%d%%nat' % x if x < 3000 else '(N.to_nat %d)' % x
            if ty == 'flt': return '(dlit (%d) %d)' % (x.numerator, x.denominator)
        raise Skip('coerce %r to %r' % (a, ty))
    def bad(self, s): raise Skip(s)
    def call(self, key, args):
        f, ats, dflt, ty, isres = S[key]
        if key == ('Precipitation','fromRemarkString') and len(args)>1 and args[1][1]=='lit':
            from fractions import Fraction
            x = Fraction(str(args[1][0])); args = list(args); args[1] = ('(to32 (dlit %d %d))'%(x.numerator,x.denominator),'flt')
        a = []
        for i,t in enumerate(ats):
            if i < len(args): a.append(self.coerce(args[i], t))
            elif i in dflt: a.append(dflt[i])
            else: raise Skip('args of %r' % (key,))
        if len(args) > len(ats): raise Skip('args of %r' % (key,))
        term = '(%s)' % ' '.join([f]+a)
        return (self.res(term), ty) if isres else (term, ty)
    def primary(self):
        k,v = self.peek()
        if k == 'str':
            s = ''
            while self.peek()[0] == 'str':
                x = self.peek()[1]; self.i += 1
                if x.endswith('s'): x = x[:-1]
                x = x[1:-1]
                out, j = '', 0
                while j < len(x):
                    if x[j] == '\\':
                        e = x[j+1]
                        if e in 'ntr': out += {'n':'\n','t':'\t','r':'\r'}[e]; j += 2
                        elif e in '"\\': out += e; j += 2
                        else: raise Skip('escape')
                    else: out += x[j]; j += 1
                s += out
            if any(ord(c) < 32 and c not in '\n\t\r' or ord(c) > 126 for c in s): raise Skip('chars')
            return (coqstr(s), 'string')
        if k == 'num':
            self.i += 1
            from fractions import Fraction
            x = v.rstrip('uUfF')
            return (Fraction(x), 'lit')
        if v == '(':
            self.i += 1; e = self.expr(); self.eat(')'); return e
        if k == 'id':
            if v == 'true' or v == 'false': self.i += 1; return (v,'bool')
            if v == 'std':
                self.i += 1; self.eat('::'); f = self.peek()[1]; self.i += 1
                if f == 'string':
                    a = self.args()
                    if a: return a[0]
                    return ('""','string')
                if f in ('get','holds_alternative','get_if'):
                    self.eat('<')
                    if self.peek()[0]=='num':
                        n = int(self.peek()[1].rstrip('u')); self.i += 1; self.eat('>')
                        a = self.args()[0]
                        if a[1][0] != 'pair': raise Skip('get')
                        return ('(%s %s)' % ('fst' if n==0 else 'snd', a[0]), a[1][1+n])
                    if self.peek()[1]=='unsigned':
                        self.i += 1
                        if self.peek()[1]=='int': self.i += 1
                        self.eat('>'); a = self.args()[0]
                        if a[1][0] != 'pair' or a[1][1]!='N' or a[1][2]=='N': raise Skip('get')
                        return ('(fst %s)' % a[0], 'N')
                    self.eat('metaf'); self.eat('::'); g = self.peek()[1]; self.i += 1
                    if g == 'Distance' and self.peek()[1]=='::':
                        self.i += 1; self.eat('MilesFraction'); self.eat('>'); a = self.args()[0]
                        return ('(snd %s)' % a[0], E('MilesFraction'))
                    self.eat('>')
                    a = self.args()[0]
                    if a[1] != 'Group' or g not in GCLASS: raise Skip('get alt')
                    o = '(as_%s %s)' % (GCLASS[g], a[0])
                    if f == 'get': return self.deref((o, O(g)))
                    return ('(has_value %s)' % o, 'bool')
                if f == 'optional':
                    for w in ('<','unsigned','int','>','(',')'): self.eat(w)
                    return ('None','none')
                raise Skip('std::'+f)
            if v == 'metaf':
                self.i += 1; path = []
                while self.peek()[1] == '::':
                    self.i += 1; path.append(self.peek()[1]); self.i += 1
                if path == ['missingMetadata']: return ('md_default','ReportMetadata')
                if self.peek()[1] == '(':
                    if len(path)==1 and path[0] in CLASSES and ('',path[0]) not in S:
                        return self.ctor(path[0], self.args())
                    key = (path[0],path[1]) if len(path)==2 else ('',path[0]) if len(path)==1 else None
                    if path == ['MetafTime','Date']:
                        a = self.args(); return ('(mkDate %s)' % ' '.join(self.coerce(x,'N') for x in a), 'Date')
                    if key not in S: raise Skip('static %r' % (path,))
                    return self.call(key, self.args())
                if len(path)==3 and (path[0],path[1]) in ENUMS:
                    ty,pre,ex = ENUMS[(path[0],path[1])]
                    return (ex.get(path[2], pre+path[2]), E(ty))
                if len(path)==2 and ('',path[0]) in ENUMS:
                    ty,pre,ex = ENUMS[('',path[0])]
                    return (ex.get(path[1], pre+path[1]), E(ty))
                raise Skip('path %r' % (path,))
            if v in HELPERS or v in KWH or v in ('isTimeSpan','isBluPlus'):
                self.i += 1; a = self.args()[0]
                if a[1] != 'Group': raise Skip('helper')
                if v in HELPERS: return ('(match %s with %s _ => true | _ => false end)' % (a[0],HELPERS[v]),'bool')
                if v in KWH: return ('(match %s with GKeyword k => KwType_beq (kw_t k) %s | _ => false end)' % (a[0],KWH[v]),'bool')
                if v=='isTimeSpan': return ('(match %s with GTrend k => Trend_isTimeSpanGroup k | _ => false end)' % a[0],'bool')
                return ('(match %s with GMisc k => MsType_beq (ms_type k) Ms_COLOUR_CODE_BLUE_PLUS | _ => false end)' % a[0],'bool')
            if v in self.env:
                self.i += 1; return self.env[v]
        raise Skip('primary %r' % ((k,v),))
    def ctor(self, cls, a):
        if cls == 'Distance' and len(a)==2 and a[0][1]=='lit' and a[1][1]==E('DistUnit'):
            return ('(Distance_of %s %s)' % (self.coerce(a[0],'N'), a[1][0]), 'Distance')
        if cls == 'Distance' and len(a)==1 and a[0][1]==E('DistUnit'): return ('(Distance_ofUnit %s)'%a[0][0],'Distance')
        if cls == 'Distance' and len(a)==2 and a[0][1]=='lit' and a[1][1]=='lit':
            return ('(Distance_ofFraction %s %s)' % (self.coerce(a[0],'N'),self.coerce(a[1],'N')),'Distance')
        if cls == 'Direction' and len(a)==1 and a[0][1]==E('Cardinal'): return ('(Direction_ofCardinal %s)'%a[0][0],'Direction')
        if cls == 'MetafTime' and len(a)==2 and a[0][1]=='lit': return ('(mkTime None %s %s)'%(self.coerce(a[0],'N'),self.coerce(a[1],'N')),'MetafTime')
        if cls == 'MetafTime' and len(a)==3: return ('(mkTime %s %s %s)'%('None' if a[0][1]=='none' else '(Some %s)'%self.coerce(a[0],'N'),self.coerce(a[1],'N'),self.coerce(a[2],'N')),'MetafTime')
        D = {'Runway':'Runway_default','MetafTime':'MetafTime_default','Speed':'Speed_default','Temperature':'Temperature_default','Distance':'Distance_default','Direction':'Direction_default','Pressure':'Pressure_default','Precipitation':'Precipitation_default','WeatherPhenomena':'WeatherPhenomena_default','CloudType':'CloudType_default','UnknownGroup':'mkUnknown'}
        if not a and cls in D: return (D[cls], cls)
        if cls == 'CloudType' and len(a)==3: return ('(mkCloudType %s %s %s)'%(a[0][0],a[1][0],self.coerce(a[2],'N')),'CloudType')
        raise Skip('ctor '+cls)
    def postfix(self):
        a = self.primary()
        while True:
            k,v = self.peek()
            if v in ('.','->'):
                self.i += 1; mname = self.peek()[1]; self.i += 1
                if v == '->':
                    a = self.deref(a)
                if self.peek()[1] == '(':
                    args = self.args()
                    a = self.method(a, mname, args)
                else:
                    key = (a[1], mname) if isinstance(a[1],str) else None
                    if key not in F: raise Skip('field %r' % (key,))
                    a = ('(%s %s)' % (F[key][0], a[0]), F[key][1])
            elif v == '[':
                self.i += 1; x = self.expr(); self.eat(']'); a = self.method(a,'at',[x])
            else: return a
    def method(self, a, name, args):
        t, ty = a
        if ty[0] == 'opt' and isinstance(ty, tuple):
            if name == 'has_value': return ('(has_value %s)' % t,'bool')
            if name == 'value': return self.deref(a)
            if name == 'value_or': return ('(opt_default %s %s)' % (t, self.coerce(args[0], ty[1])), ty[1])
        if isinstance(ty, tuple) and ty[0] == 'vec':
            if name == 'size': return ('(N.of_nat (List.length %s))' % t,'N')
            if name == 'empty': return ('(match %s with [] => true | _ => false end)' % t,'bool')
            if name == 'at': return (self.res('deref (List.nth_error %s %s)' % (t, self.coerce(args[0],'nat'))), ty[1])
            if name == 'back': return (self.res('deref (List.nth_error (List.rev %s) 0)' % t), ty[1])
        if ty == 'string':
            if name == 'empty': return ('(sempty %s)' % t, 'bool')
            if name == 'length': return ('(N.of_nat (slen %s))'%t,'N')
        if ty == 'Distance' and name == 'isValid': return ('true','bool') # constantly true (274)
        if ty == 'Temperature' and name == 'unit': return ('Temp_C', E('TempUnit'))
        if ty == 'WaveHeight' and name == 'unit': return ('Wh_METERS', E('WhUnit'))
        if name == 'toUnit' and ty in TOUNIT:
            return ('(%s_toUnit %s %s)' % (ty, t, args[0][0]), O('flt'))
        if ty == 'Direction' and name == 'cardinal':
            return ('(Direction_cardinal %s %s)' % (t, args[0][0] if args else 'false'), E('Cardinal'))
        if ty == 'MetafTime' and name == 'dateBeforeRef':
            return ('(MetafTime_dateBeforeRef %s %s)' % (t, args[0][0]), 'Date')
        key = (ty, name) if isinstance(ty,str) else None
        if key in M and not args:
            f, r, isres = M[key]
            term = '(%s %s)' % (f, t)
            return (self.res(term), r) if isres else (term, r)
        raise Skip('method %r.%s' % (ty, name))
    def eq(self, a, b):
        if a[1] == 'lit' and b[1] != 'lit': a,b = b,a
        ta = a[1]
        if ta == 'lit': return 'true' if a[0]==b[0] else 'false'
        if isinstance(ta, tuple) and ta[0]=='opt' and not (isinstance(b[1],tuple) and b[1][0]=='opt'):
            x = self.deref(a); return self.eq(x, b)
        if ta == 'N': return '(N.eqb %s %s)' % (a[0], self.coerce(b,'N'))
        if ta == 'bool' and b[1]=='bool': return '(Bool.eqb %s %s)' % (a[0],b[0])
        if ta == 'string' and b[1]=='string': return '(String.eqb %s %s)' % (a[0],b[0])
        if ta == 'flt': return '(flt_eqb %s %s)' % (a[0], self.coerce(b,'flt'))
        if isinstance(ta,tuple) and ta[0]=='enum' and b[1]==ta: return '(%s_beq %s %s)' % (ta[1],a[0],b[0])
        raise Skip('eq %r %r' % (ta,b[1]))

def split_statements(body, line0):
    """Yields (line, text) of the statements of a TEST body (flat bodies only)."""
    out, depth, cur, line, start, instr, i = [], 0, '', line0, None, False, 0
    while i < len(body):
        c = body[i]
        if c == '\n': line += 1
        if not instr and body.startswith('//', i):
            j = body.find('\n', i)
            i = j if j >= 0 else len(body)
            continue
        if c == '"' and (i == 0 or body[i-1] != '\\'): instr = not instr
        if not instr:
            if c in '({[': depth += 1
            if c in ')}]': depth -= 1
        if start is None and not c.isspace(): start = line
        cur += c
        if c == ';' and depth == 0 and not instr:
            out.append((start, cur.strip())); cur = ''; start = None
        i += 1
    if cur.strip(): out.append((start or line, cur.strip()))
    return out

def near(tr, a, b, mar):
    return '(near %s %s %s)' % (tr.coerce(a,'flt'), tr.coerce(b,'flt'), tr.coerce(mar,'flt'))

def wrap_binds(binds, term):
    for v, t in reversed(binds):
        term = 'let! %s := %s in %s' % (v, t, term)
    return term

def translate_body(body, line0, glob, stats):
    tr = Tr(glob)
    steps = []      # strings; closed by nesting
    nst = 0
    try:
        for line, st in split_statements(body, line0):
            if st in (';',): continue
            tr.binds = []
            k = re.match(r'(EXPECT|ASSERT)_(\w+)\s*\((.*)\)\s*(<<.*)?;$', st, re.S)
            if k:
                kind, inner = k.group(2), k.group(3)
                toks = lex(inner)
                # split top-level commas
                parts, d, cur = [], 0, []
                for t in toks:
                    if t[1] in '([{' : d += 1
                    if t[1] in ')]}' : d -= 1
                    if t[1] == ',' and d == 0: parts.append(cur); cur = []
                    else: cur.append(t)
                parts.append(cur)
                # append statements
                ap = None
                if kind == 'EQ':
                    txt = [t[1] for t in parts[0]]
                    if 'append' in txt and len(parts[0]) > 3 and txt[1] == '->' and txt[2] == 'append':
                        var = txt[0]
                        if var not in tr.env: raise Skip('append var')
                        a = tr.env[var]
                        tr.t = parts[0]; tr.i = 3
                        args = tr.args()
                        if tr.i != len(parts[0]): raise Skip('append tail')
                        obj = tr.deref(a)
                        if obj[1] not in GCLASS: raise Skip('append type')
                        s = tr.coerce(args[0],'string')
                        part = tr.coerce(args[1],E('ReportPart')) if len(args)>1 else 'RP_UNKNOWN'
                        md = tr.coerce(args[2],'ReportMetadata') if len(args)>2 else 'md_default'
                        nv = tr.fresh(); rv = tr.fresh()
                        exp = tr.parse(parts[1])
                        call = '%s_append %s %s %s %s' % (obj[1], obj[0], s, part, md)
                        steps.append('step %d (%s) (fun p => let %s := Some (fst p) in let %s := snd p in ' % (line, wrap_binds(tr.binds, call), nv, rv))
                        steps.append('chk %d (Ok (AppendResult_beq %s %s)) (' % (line, rv, exp[0]))
                        tr.env[var] = (nv, a[1])
                        nst += 1
                        continue
                es = [tr.parse(p) for p in parts]
                if kind in ('TRUE','FALSE') and isinstance(es[0][1],tuple) and es[0][1][0]=='opt': es[0] = ('(has_value %s)' % es[0][0],'bool')
                if kind == 'TRUE': t = es[0]; term = t[0] if t[1]=='bool' else tr.bad('true of %r' % (t[1],))
                elif kind == 'FALSE': t = es[0]; term = '(negb %s)' % t[0] if t[1]=='bool' else tr.bad('false')
                elif kind == 'EQ': term = tr.eq(es[0], es[1])
                elif kind == 'NE': term = '(negb %s)' % tr.eq(es[0], es[1])
                elif kind == 'NEAR': term = near(tr, *es)
                else: raise Skip('kind '+kind)
                steps.append('chk %d (%s) (' % (line, wrap_binds(tr.binds, 'Ok %s' % term)))
                nst += 1
                continue
            k = re.match(r'(?:static\s+)?(?:const\s+)?(?:static\s+)?(?:auto|std::string|metaf::\w+|char)\s+(\w+)(?:\[\])?\s*(?:=\s*(.*)|\((.*)\))\s*;$', st, re.S)
            if k:
                name = k.group(1); rhs = k.group(2) or k.group(3)
                if k.group(3) is not None:
                    cm = re.search(r'metaf::(\w+)\s+\w+\s*\(', st)
                    if cm and '=' not in st.split('(')[0]: rhs = 'metaf::%s(%s)' % (cm.group(1), k.group(3))
                e = tr.parse(lex(rhs))
                if e[1] == 'lit': tr.env[name] = e; continue
                for v, t in tr.binds: steps.append('step %d (%s) (fun %s => ' % (line, t, v))
                tr.env[name] = e
                continue
            k = re.match(r'(?:static\s+)?(?:const\s+)?metaf::ReportMetadata\s+(\w+)\s*;$', st)
            if k: tr.env[k.group(1)] = ('md_default','ReportMetadata'); continue
            k = re.match(r'(\w+)\.reportTime\s*=\s*(.*);$', st, re.S)
            if k and k.group(1) in tr.env:
                e = tr.parse(lex(k.group(2)))
                if e[1] == 'MetafTime':
                    for v, t in tr.binds: steps.append('step %d (%s) (fun %s => ' % (line, t, v))
                    tr.env[k.group(1)] = ('(md_set_reportTime %s %s)' % (tr.env[k.group(1)][0], e[0]),'ReportMetadata'); continue
                if e[1] == O('MetafTime'):
                    for v, t in tr.binds: steps.append('step %d (%s) (fun %s => ' % (line, t, v))
                    v = tr.fresh(); steps.append('step %d (deref %s) (fun %s => ' % (line, e[0], v))
                    tr.env[k.group(1)] = ('(md_set_reportTime %s %s)' % (tr.env[k.group(1)][0], v),'ReportMetadata'); continue
            raise Skip('stmt '+st[:70])
    except Skip as ex:
        stats['skips'].append((line0, str(ex)))
    stats['stmts'] += nst
    return ''.join(s+'\n    ' for s in steps) + 'None' + ')'*len(steps), nst

HEAD = '''(** Generated by tools/gen_tests.py from /repo/test/%s: the project's own unit tests, run
    against the model. These are tests of the model's fidelity, not properties. *)

From Verif Require Import Prim Regex Float Values Weather Groups1 Groups2 Groups3 Groups4 Parser TestLib.
Local Open Scope string_scope.
Local Open Scope bool_scope.

'''
def gen_file(path):
    name = os.path.basename(path)[5:-4]
    src = open(path, encoding='latin1').read()
    glob = {}
    for k in re.finditer(r'^(?:static )?const auto (\w+) = ([\d./ *]+);', src, re.M):
        tr = Tr({}); glob[k.group(1)] = tr.parse(lex(k.group(2)))
    for k in re.finditer(r'^(?:static )?const auto (\w+) = metaf::ReportPart::(\w+);', src, re.M):
        glob[k.group(1)] = ('RP_'+k.group(2), E('ReportPart'))
    stats = {'stmts':0,'skips':[]}
    out, names = [], []
    for k in re.finditer(r'^TEST\((\w+),\s*(\w+)\)\s*\{', src, re.M):
        i = k.end(); d = 1; instr = False
        while d:
            c = src[i]
            if not instr and src.startswith('//', i): i = src.index('\n', i); continue
            if c == '"' and src[i-1] != '\\': instr = not instr
            if not instr:
                if c == '{': d += 1
                if c == '}': d -= 1
            i += 1
        body = src[k.end():i-1]
        line0 = src.count('\n', 0, k.end()) + 1
        nm = 't_%s_%s' % (k.group(1), k.group(2))
        while nm in names: nm += '_'
        term, n = translate_body(body, line0, glob, stats)
        if n == 0: continue
        names.append(nm)
        out.append('Definition %s : option N :=\n    %s.\n' % (nm, term))
    if names:
        with open('%s/Tests_%s.v' % (OUT, name), 'w') as f:
            f.write(HEAD % os.path.basename(path) + '\n'.join(out))
            f.write('\nExample tests_%s_pass : failures\n  [%s] = [].\nProof. vm_compute. reflexivity. Qed.\n' % (name, ';\n   '.join('("%s", %s)' % (x[2:],x) for x in names)))
    return name, len(names), stats

def gen_real():
    src = open(TESTS+'/testdata_real.cpp', encoding='latin1').read()
    src = src[src.index('realDataSet = {')+len('realDataSet = {'):]
    src = re.sub(r'^\s*//.*$', '', src, flags=re.M)
    toks = lex(src)
    # entries: { "ICAO" , "name" , { y, m, d } , str, str, {attrs}, {attrs}, num }
    i, entries = 0, []
    def adj():
        nonlocal i
        s = ''
        while toks[i][0] == 'str':
            s += toks[i][1][1:-1].replace('\\n','\n').replace('\\r','\r').replace('\\t','\t'); i += 1
        return s
    def attrs():
        nonlocal i
        r = []; assert toks[i][1] == '{'; i += 1
        while toks[i][1] != '}':
            if toks[i][0]=='id' and toks[i-1][1]=='::' and toks[i-2][1]=='Attribute': r.append(toks[i][1])
            i += 1
        i += 1
        return r
    while toks[i][1] == '{':
        i += 1
        icao = adj(); i += 1; adj(); i += 1
        while toks[i][1] != '}': i += 1
        i += 2
        metar = adj(); i += 1; taf = adj(); i += 1
        ma = attrs(); i += 1; ta = attrs()
        num = 0
        if toks[i][1] == ',': i += 1; num = int(toks[i][1]); i += 1
        assert toks[i][1] == '}', toks[i-5:i+5]
        i += 1
        if toks[i][1] == ',': i += 1
        entries.append((icao, metar, taf, ma, ta, num))
    A = ['SPECI','NOSPECI','AUTO','AO1','AO1A','AO2','AO2A','NIL','CNL','AMD','COR','MAINTENANCE_INDICATOR']
    def fl(x): return '['+'; '.join('true' if a in x else 'false' for a in A)+']'
    n = 0
    per = 150
    rows = []
    for e in entries:
        if e[1]: rows.append('(%s, RT_METAR, %s, %s, %d%%N)' % (coqstr(e[1]), coqstr(e[0]), fl(e[3]), e[5]))
        if e[2]: rows.append('(%s, RT_TAF, %s, %s, 0%%N)' % (coqstr(e[2]), coqstr(e[0]), fl(e[4])))
    with open(OUT+'/Tests_realdata.v','w') as f:
        f.write(HEAD % 'testdata_real.cpp and test_parser.cpp 238-285')
        for b in range(0, len(rows), per):
            f.write('Definition real_data_%d : list real_row :=\n [%s].\n' % (b//per, ';\n  '.join(rows[b:b+per])))
            f.write('Example real_data_%d_passes : real_failures real_data_%d = []. Proof. vm_compute. reflexivity. Qed.\n' % (b//per,b//per))
    return len(rows)

if __name__ == '__main__':
    verbose = len(sys.argv) > 2
    tot = 0
    for p in sorted(glob.glob(TESTS+'/test_*.cpp')):
        name, n, st = gen_file(p)
        tot += st['stmts']
        print('%-28s tests %4d checks %5d cut %3d' % (name, n, st['stmts'], len(st['skips'])))
        if verbose:
            for l, s in st['skips']: print('      ', l, s[:110])
    print('real reports', gen_real(), 'checks', tot)
