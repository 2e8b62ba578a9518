package edit

type Getter interface {
	// Errors:
	//
	//    - edit-a --
	Get() error
}

type impl struct{}

func (i impl) Get() error {
	return load()
}

// Errors:
//
//    - edit-a --
func load() error {
	return &Error{"edit-b"}
}

// Errors:
//
//    - edit-b --
func First() error {
	i := impl{}
	return i.Get()
}

// Errors:
//
//    - edit-b --
func Second() error {
	return &Error{"edit-b"}
}

func Convert() {
	var g Getter
	g = impl{}
	_ = g
}

type Error struct {
	TheCode string
}

func (e *Error) Code() string               { return e.TheCode }
func (e *Error) Message() string            { return e.TheCode }
func (e *Error) Details() map[string]string { return nil }
func (e *Error) Cause() error               { return nil }
func (e *Error) Error() string              { return e.Message() }

type said struct{}

// Errors:
//
//    - edit-b --
func (s said) Get() error {
	return &Error{"edit-b"}
}

func ConvertSaid() {
	var g Getter
	g = said{}
	_ = g
}
